(** Model of src/f4enix/output/meshtal/fmesh.py, meshtal.py and of the grids built in
    aux_meshtal_functions.py.  Floats are exact rationals; a grid is its points and its named cell arrays
    (vtkFloatArray stores single precision: not modelled).  OtherError stands for RuntimeError. *)
From Coq Require Import Qabs.
From Verif Require Import PyBase PyStr PyText D1SModel LibModel DataModel MeshModel.
Open Scope nat_scope.

(** fmesh.py 23-68 MeshData: geometry, boundaries, bins and data *)
Record mdata := mkMD { md_cyl : bool; md_x1 : list Q; md_x2 : list Q; md_x3 : list Q; md_e : xbin; md_t : xbin; md_a : arr }.
Definition nx1 (m : mdata) : nat := length (md_x1 m) - 1.
Definition nx2 (m : mdata) : nat := length (md_x2 m) - 1.
Definition nx3 (m : mdata) : nat := length (md_x3 m) - 1.
Definition ne (m : mdata) : nat := Z.to_nat (nbins (md_e m)).
Definition nt (m : mdata) : nat := Z.to_nat (nbins (md_t m)).

(** 160-188 (energy) and 190-218 (time): the bin asked for and its ExtraBin; without one, 0 and all bins *)
Definition pick (b : xbin) (sel : option Z) : res (nat * xbin) :=
  match sel with
  | None => Ok (0, b)
  | Some i =>
      let n := nbins b in
      do i' <- (if (i <? 0)%Z then if (- i <? n + 1)%Z then Ok (i + n)%Z else Err TypeError else Ok i);
      if (i' <? n)%Z
      then if totalbin b && (i' =? n - 1)%Z
           then if binbound b
                then match x_vals b with
                     | [] => Err IndexError
                     | v :: vs => Ok (Z.to_nat i', mkBin [v; last (v :: vs) 0%Q] (x_tag b) true)
                     end
                else Ok (Z.to_nat i', mkBin [(-1)%Q] (x_tag b) true)
           else Ok (Z.to_nat i', mkBin (firstn (if binbound b then 2 else 1) (skipn (Z.to_nat i') (x_vals b))) (x_tag b) true)
      else Err TypeError
  end.
(** 155-235 get_etbin_data *)
Definition get_etbin_data (m : mdata) (esel tsel : option Z) : res mdata :=
  do '(e, eb) <- pick (md_e m) esel;
  do '(t, tb) <- pick (md_t m) tsel;
  let a := md_a m in
  let one b := (nbins b =? 1)%Z in
  let a' : arr := if one eb && one tb then fun t' e' k j i => if (t' =? 0) && (e' =? 0) then a t e k j i else None
                  else if one eb then fun t' e' k j i => if e' =? 0 then a t' e k j i else None
                  else if one tb then fun t' e' k j i => if t' =? 0 then a t e' k j i else None
                  else a in
  Ok (mkMD (md_cyl m) (md_x1 m) (md_x2 m) (md_x3 m) eb tb a').

(** aux_meshtal_functions.py 399-457 _get_labels *)
Definition bin_name (c : string) (i : nat) : str := s2l c ++ fmt03 (N.of_nat (S i)).
Definition lab (l : str * str) (suffix : str) : str * str := (fst l ++ suffix, snd l ++ suffix).
Definition get_labels (nt ne : nat) (l : str * str) : list (list (str * str)) :=
  if (1 <? nt) && (1 <? ne) then
    map (fun it => map (fun ie => lab l (bin_name "_t" it ++ bin_name "_e" ie)) (seq 0 (ne - 1)) ++ [lab l (bin_name "_t" it ++ s2l "_eTot")]) (seq 0 (nt - 1))
    ++ [map (fun ie => lab l (s2l "_tTot" ++ bin_name "_e" ie)) (seq 0 (ne - 1)) ++ [lab l (s2l "_tTot_eTot")]]
  else if 1 <? nt then
    map (fun it => [lab l (bin_name "_t" it)]) (seq 0 (nt - 1)) ++ [[lab l (s2l "_tTot")]]
  else if 1 <? ne then
    [map (fun ie => lab l (bin_name "_e" ie)) (seq 0 (ne - 1)) ++ [lab l (s2l "_eTot")]]
  else [[lab l []]].
Definition column_labels : str * str := (s2l "Value - Total", s2l "Error - Total").

(** grids: the points in order and the cell arrays by name.  AddArray replaces an array of the same name *)
Record grid := mkGrid { g_points : list (Q * Q * Q); g_arrays : list (str * list Q) }.
Definition cell (a : arr) (t e k j i : nat) : Q * Q := match a t e k j i with Some p => p | None => (0, 0)%Q end.
(* mesh.data[it, ie, :, :, :, n].ravel() *)
Definition ravel (m : mdata) (t e : nat) (side : Q * Q -> Q) : list Q :=
  concat (map (fun k => concat (map (fun j => map (fun i => side (cell (md_a m) t e k j i)) (seq 0 (nx1 m))) (seq 0 (nx2 m)))) (seq 0 (nx3 m))).
(** 478-486 and 537-545: the arrays, in the order of the times and energies *)
Definition bins (nt ne : nat) : list (nat * nat) := concat (map (fun t => map (fun e => (t, e)) (seq 0 ne)) (seq 0 nt)).
Definition add_bin (m : mdata) (ls : list (list (str * str))) (d : res (list (str * list Q))) (te : nat * nat) : res (list (str * list Q)) :=
  do d <- d;
  match nth_error ls (fst te) with
  | None => Err IndexError
  | Some row => match nth_error row (snd te) with
                | None => Err IndexError
                | Some (v, e) => Ok (dset str_eqb e (ravel m (fst te) (snd te) snd) (dset str_eqb v (ravel m (fst te) (snd te) fst) d))
                end
  end.
Definition bin_arrays (m : mdata) (l : str * str) : res (list (str * list Q)) :=
  fold_left (add_bin m (get_labels (nt m) (ne m) l)) (bins (nt m) (ne m)) (Ok []).

(** 503-507: the first angular slice of a cylinder is cut at half a turn when it is wider *)
Definition cut_turn (m : mdata) : res mdata :=
  if md_cyl m then
    match md_x3 m with
    | x :: y :: xs =>
        if Qle_bool y (1 # 2) then Ok m
        else Ok (mkMD true (md_x1 m) (md_x2 m) (x :: (1 # 2)%Q :: y :: xs) (md_e m) (md_t m)
                   (fun t e k j i => md_a m t e (pred k) j i))
    | _ => Err IndexError
    end
  else Ok m.
Section Grids.
  (** sine and cosine of a fraction of a turn; R: the rotation matrix of a transformation *)
  Context {R : Type} (sin_turn cos_turn : Q -> Q).
  Definition trsf := option ((Q * Q * Q) * R).
  Definition origin (tr : trsf) : Q * Q * Q := match tr with None => (0, 0, 0)%Q | Some (o, _) => o end.
  (** 509-533: the points of a structured grid *)
  Definition points (m : mdata) (tr : trsf) : list (Q * Q * Q) :=
    let '(o1, o2, o3) := origin tr in
    concat (map (fun x3 => concat (map (fun x2 => map (fun x1 =>
      if md_cyl m then (x1 * cos_turn x3 + o1, x1 * sin_turn x3 + o2, x2 + o3)%Q
      else (x1 + o1, x2 + o2, x3 + o3)%Q) (md_x1 m)) (md_x2 m))) (md_x3 m)).
  (* a rectilinear grid: the boundaries themselves *)
  Definition rect_points (m : mdata) : list (Q * Q * Q) :=
    concat (map (fun z => concat (map (fun y => map (fun x => (x, y, z)) (md_x1 m)) (md_x2 m))) (md_x3 m)).
  (** fmesh.py 448-461 _create_grid (459-486 _rectilinear_grid, 489-546 _structured_grid), and the mesh
      as the call leaves it *)
  Definition create_grid (m : mdata) (tr : trsf) (l : str * str) : res (mdata * grid) :=
    match md_cyl m, tr with
    | false, None => do d <- bin_arrays m l; Ok (m, mkGrid (rect_points m) d)
    | _, _ => do m' <- cut_turn m; do d <- bin_arrays m' l; Ok (m', mkGrid (points m' tr) d)
    end.

  (** fmesh.py 238-286 Fmesh: the mesh, its label, transformation, comments and grid *)
  Record fmesh := mkF { f_mesh : mdata; f_tally : str; f_trsf : trsf; f_comments : option str; f_grid : grid }.
  Definition make_fmesh (m : mdata) (tally : str) (tr : trsf) (l : str * str) : res fmesh :=
    do '(m', g) <- create_grid m tr l; Ok (mkF m' tally tr None g).
  (** meshtal.py 48-77 create_filtered_mesh: the transformation is not handed on *)
  Definition create_filtered_mesh (d : list (Z * fmesh)) (id : Z) (l : str * str) (esel tsel : option Z) : res fmesh :=
    match dget Z.eqb id d with
    | None => Err KeyError
    | Some f => do m <- get_etbin_data (f_mesh f) esel tsel; make_fmesh m (str_of_Z id) None l
    end.

  (** fmesh.py 389-446 convert2tally: column name, boundaries, values, errors.  DataFrame refuses columns of
      different lengths; the UnboundLocalError of 395-400 when the third axis has several bins *)
  Definition g_get (g : grid) (n : str) : res (list Q) := match dget str_eqb n (g_arrays g) with Some l => Ok l | None => Err KeyError end.
  Definition from_grid (f : fmesh) (col : string) (n : nat) (x : list Q) : res (str * list Q * list Q * list Q) :=
    do v <- g_get (f_grid f) (fst column_labels);
    do e <- g_get (f_grid f) (snd column_labels);
    Ok (s2l col, tl x, firstn n v, firstn n e).
  Definition columns (f : fmesh) : res (str * list Q * list Q * list Q) :=
    let m := f_mesh f in
    if (nx1 m =? 1) && (nx2 m =? 1) && (2 <? length (x_vals (md_e m))) then
      if (md_cyl m && (nx3 m =? 2)) || (nx3 m =? 1)
      then Ok (s2l "Energy", tl (x_vals (md_e m)), map (fun e => fst (cell (md_a m) 0 e 0 0 0)) (seq 0 (ne m - 1)),
                                                   map (fun e => snd (cell (md_a m) 0 e 0 0 0)) (seq 0 (ne m - 1)))
      else Err UnboundLocalError
    else if (nx1 m =? nx2 m) && (nx2 m =? 1) then from_grid f "Cor C" (nx3 m) (md_x3 m)
    else if (nx1 m =? nx3 m) && (nx3 m =? 1) then from_grid f "Cor B" (nx2 m) (md_x2 m)
    else if (nx2 m =? nx3 m) && (nx3 m =? 1) then from_grid f "Cor A" (nx1 m) (md_x1 m)
    else if (nx1 m =? 1) && (nx3 m =? 2) && md_cyl m then from_grid f "Cor B" (nx2 m) (md_x2 m)
    else if (nx2 m =? 1) && (nx3 m =? 2) && md_cyl m then from_grid f "Cor A" (nx1 m) (md_x1 m)
    else Err OtherError.
  Definition table := (str * list Q * list Q * list Q)%type.
  Definition convert2tally (f : fmesh) : res (Z * table * str) :=
    do '(c, x, v, e) <- columns f;
    if (length x =? length v) && (length x =? length e)
    then do n <- parse_int (f_tally f);
         Ok (n, (c, x, v, e), match f_comments f with Some s => s | None => s2l "None" end)
    else Err ValueError.

  (** fmesh.py 621-646 sameMesh.  Boundaries are compared only when the shapes are equal *)
  Definition close (a b : list Q) : bool := forallb (fun p => Qle_bool (Qabs (fst p - snd p)) (1 # 1000000000000)) (combine a b).
  Definition same_mesh (m o : mdata) : bool :=
    Bool.eqb (md_cyl m) (md_cyl o)
    && ((nt m =? nt o) && (ne m =? ne o) && (nx3 m =? nx3 o) && (nx2 m =? nx2 o) && (nx1 m =? nx1 o))
    && (close (md_x1 m) (md_x1 o) && close (md_x2 m) (md_x2 o) && close (md_x3 m) (md_x3 o)).

  (** meshtal.py 130-193 collapse_grids.  The name lists are zipped with the two arrays of a mesh.  [rename]:
      rename_array, which keeps the array in its place; an array of the new name is replaced *)
  Definition rename (old new : str) (d : list (str * list Q)) : list (str * list Q) :=
    match dget str_eqb old d with
    | None => d
    | Some v => if str_eqb old new then d else dset str_eqb new v (ddel str_eqb old d)
    end.
  Fixpoint check_same (d : list (Z * fmesh)) (first : option mdata) (keys : list Z) : res unit :=
    match keys with
    | [] => Ok tt
    | k :: ks => match dget Z.eqb k d with
                 | None => Err KeyError
                 | Some f => match first with
                             | None => check_same d (Some (f_mesh f)) ks
                             | Some c => if same_mesh c (f_mesh f) then check_same d first ks else Err OtherError
                             end
                 end
    end.
  Fixpoint check_plain (d : list (Z * fmesh)) (keys : list Z) : res unit :=
    match keys with
    | [] => Ok tt
    | k :: ks => match dget Z.eqb k d with
                 | None => Err KeyError
                 | Some f => match map fst (g_arrays (f_grid f)) with
                             | [a; b] => if str_eqb a (fst column_labels) && str_eqb b (snd column_labels) then check_plain d ks else Err OtherError
                             | _ => Err OtherError
                             end
                 end
    end.
  Definition add_named (g : grid) (names : list str) (f : fmesh) : res grid :=
    fold_left (fun r p => do g <- r; do v <- g_get (f_grid f) (snd p); Ok (mkGrid (g_points g) (dset str_eqb (fst p) v (g_arrays g))))
      (combine names [fst column_labels; snd column_labels]) (Ok g).
  Definition collapse_grids (d : list (Z * fmesh)) (names : list (Z * list str)) : res grid :=
    do _ <- check_same d None (map fst names);
    do _ <- check_plain d (map fst names);
    match names with
    | [] => Err UnboundLocalError
    | (k, ns) :: rest =>
        match dget Z.eqb k d with
        | None => Err KeyError
        | Some f =>
            let g0 := f_grid f in
            let g1 := mkGrid (g_points g0) (fold_left (fun a p => rename (fst p) (snd p) a) (combine (map fst (g_arrays g0)) ns) (g_arrays g0)) in
            fold_left (fun r kn => do g <- r; match dget Z.eqb (fst kn) d with None => Err KeyError | Some f => add_named g (snd kn) f end) rest (Ok g1)
        end
    end.
End Grids.
Arguments mkF {R}. Arguments f_mesh {R}. Arguments f_tally {R}. Arguments f_trsf {R}. Arguments f_comments {R}. Arguments f_grid {R}.

(** ** transformations *)
(** a TR card: cards of another kind ([tr_is] false) are refused; values after the number; unit "*": degrees *)
Record trcard := mkTR { tr_is : bool; tr_star : bool; tr_vals : list Q }.
Notation vec := (Q * Q * Q)%type.
Notation mat := (vec * vec * vec)%type.
Definition transpose (m : mat) : mat := let '((a, b, c), (d, e, f), (g, h, i)) := m in ((a, d, g), (b, e, h), (c, f, i)).
Definition det (m : mat) : Q := let '((a, b, c), (d, e, f), (g, h, i)) := m in (a * (e * i - f * h) - b * (d * i - f * g) + c * (d * h - e * g))%Q.
(* numpy.linalg.inv, exactly; None: LinAlgError *)
Definition inv (m : mat) : option mat :=
  let '((a, b, c), (d, e, f), (g, h, i)) := m in
  let D := det m in
  if Qeq_bool D 0 then None
  else Some (((e * i - f * h) / D, (c * h - b * i) / D, (b * f - c * e) / D),
             ((f * g - d * i) / D, (a * i - c * g) / D, (c * d - a * f) / D),
             ((d * h - e * g) / D, (b * g - a * h) / D, (a * e - b * d) / D))%Q.
Definition mulv (m : mat) (v : vec) : vec :=
  let '((a, b, c), (d, e, f), (g, h, i)) := m in let '(x, y, z) := v in
  (a * x + b * y + c * z, d * x + e * y + f * z, g * x + h * y + i * z)%Q.
Definition addv (v w : vec) : vec := let '(x, y, z) := v in let '(a, b, c) := w in (x + a, y + b, z + c)%Q.
Section Transform.
  Context {R : Type} (cos_deg : Q -> Q).
  (** fmesh.py 653-731 apply_transformation: the map applied to every point of the grid *)
  Definition affine (c : trcard) : res (vec -> vec) :=
    if negb (tr_is c) then Err ValueError
    else match tr_vals c with
         | [x; y; z] => Ok (fun p => addv p (x, y, z))
         | [x; y; z; b1; b2; b3; b4; b5; b6; b7; b8; b9] =>
             let f q := if tr_star c then cos_deg q else q in
             match inv (transpose ((f b1, f b2, f b3), (f b4, f b5, f b6), (f b7, f b8, f b9))) with
             | None => Err UnboundLocalError
             | Some m => Ok (fun p => addv (mulv m p) (x, y, z))
             end
         | _ => Err ValueError
         end.
  Definition apply_transformation (f : fmesh (R := R)) (c : trcard) : res fmesh :=
    do t <- affine c;
    Ok (mkF (f_mesh f) (f_tally f) (f_trsf f) (f_comments f) (mkGrid (map t (g_points (f_grid f))) (g_arrays (f_grid f)))).
  (** meshtal.py 226-239 transform_multiple_fmesh: the meshes done before an error stay done *)
  Fixpoint transform_many (d : list (Z * fmesh (R := R))) (l : list (Z * trcard)) : list (Z * fmesh) * option exn :=
    match l with
    | [] => (d, None)
    | (k, c) :: l' => match dget Z.eqb k d with
                      | None => (d, Some KeyError)
                      | Some f => match apply_transformation f c with
                                  | Err e => (d, Some e)
                                  | Ok f' => transform_many (dset Z.eqb k f' d) l'
                                  end
                      end
    end.
  (** 207 the pattern tr\s*=\s*\d+, searched in a line; the text after the "=", with its blanks *)
  Fixpoint span_ws (s : str) : str * str :=
    match s with c :: s' => if is_ws c then let (a, b) := span_ws s' in (c :: a, b) else ([], s) | [] => ([], []) end.
  Definition tr_here (s : str) : option str :=
    match s with
    | t :: r :: s1 =>
        if Ascii.eqb t "t"%char && Ascii.eqb r "r"%char then
          match snd (span_ws s1) with
          | q :: s2 => if Ascii.eqb q "="%char then
                         let (w, s3) := span_ws s2 in
                         match span_digits s3 with ([], _) => None | (ds, _) => Some (w ++ ds) end
                       else None
          | [] => None
          end
        else None
    | _ => None
    end.
  Fixpoint tr_search (s : str) : option str :=
    match tr_here s with Some x => Some x | None => match s with [] => None | _ :: s' => tr_search s' end end.
  Fixpoint first_match (ls : list str) : option str :=
    match ls with [] => None | l :: ls' => match tr_search l with Some x => Some x | None => first_match ls' end end.
  (** 195-224 transform_fmesh: the FMESH cards of the input (key, number, lines) and its transformations *)
  Fixpoint collect (d : list (Z * fmesh (R := R))) (trs : list (str * trcard)) (cards : list (str * (Z * list str))) (acc : list (Z * trcard)) : res (list (Z * trcard)) :=
    match cards with
    | [] => Ok acc
    | (key, (n, ls)) :: cs =>
        if has "FMESH" key && (match dget Z.eqb n d with Some _ => true | None => false end)
        then match first_match ls with
             | None => collect d trs cs acc
             | Some x => match dget str_eqb (s2l "TR" ++ x) trs with
                         | None => Err KeyError
                         | Some c => collect d trs cs (dset Z.eqb n c acc)
                         end
             end
        else collect d trs cs acc
    end.
  Definition transform_fmesh (d : list (Z * fmesh (R := R))) (cards : list (str * (Z * list str))) (trs : list (str * trcard)) : list (Z * fmesh) * option exn :=
    match collect d trs cards [] with Err e => (d, Some e) | Ok l => transform_many d l end.
End Transform.

(** ** text exports *)
(** f"{q:.3f}" *)
Definition fmt_f3_pos (q : Q) : str :=
  let n := Z.to_N (qround_even (q * 1000)%Q) in str_of_N (n / 1000) ++ dot :: ndig 3 (n mod 1000).
Definition fmt_f3 (q : Q) : str := if Qle_bool 0 q then fmt_f3_pos q else minus :: fmt_f3_pos (- q)%Q.
(** fmesh.py 733-738 _clean_path *)
Definition clean_path (s : str) : str := filter (fun c => negb (existsb (Ascii.eqb c) (s2l "[]\/"))) s.
(* values of the arrays at position i: IndexError past the end *)
Definition at_pos (l : list Q) (i : nat) : res Q := match nth_error l i with Some q => Ok q | None => Err IndexError end.
Definition crlf : str := ["013"%char; nl].
(** 541-566 _write_csv: the rows *)
Definition csv_row (g : grid) (names : list str) (ip : nat * vec) : res str :=
  let '(i, (x, y, z)) := ip in
  do vs <- mapM (fun n => do l <- g_get g n; do v <- at_pos l i; Ok (s2l ", " ++ fmt_f3 v)) names;
  Ok (fmt_f3 x ++ s2l ", " ++ fmt_f3 y ++ s2l ", " ++ fmt_f3 z ++ concat vs ++ crlf).
Definition enum {A} (l : list A) : list (nat * A) := combine (seq 0 (length l)) l.
Definition write_csv (g : grid) (pts : list vec) (names : list str) : res str :=
  do rows <- mapM (csv_row g names) (enum pts); Ok (concat rows).
(** 568-583 _write_point_cloud: one file per array *)
Definition cloud_file (g : grid) (pts : list vec) (n : str) : res str :=
  do l <- g_get g n;
  do rows <- mapM (fun ip => let '(i, (x, y, z)) := ip in do v <- at_pos l i; Ok (fmt_f3 x ++ s2l "," ++ fmt_f3 y ++ s2l "," ++ fmt_f3 z ++ s2l "," ++ fmt_f3 v ++ [nl])) (enum pts);
  Ok (s2l "x, y, z, value" ++ nl :: concat rows).
Definition write_files (file : str -> res str) (path : str) (names : list str) (fs : list (str * str)) : res (list (str * str)) :=
  fold_left (fun r n => do fs <- r; do t <- file n; Ok (dset str_eqb (path ++ s2l "_" ++ clean_path n ++ s2l ".txt") t fs)) names (Ok fs).
(** 585-619 _write_fluent *)
Definition fluent_block (qs : list Q) : str := s2l "(" ++ concat (map (fun q => fmt_f3 q ++ [nl]) qs) ++ s2l ")" ++ [nl].
Definition fluent_file (g : grid) (pts : list vec) (n : str) : res str :=
  do l <- g_get g n;
  do vs <- mapM (fun ip => at_pos l (fst ip)) (enum pts);
  Ok (concat (map (fun w => w ++ [nl]) [s2l "3"; s2l "3"; str_of_N (N.of_nat (length pts)); s2l "1"; s2l "uds-0"])
      ++ fluent_block (map (fun p => fst (fst p)) pts) ++ fluent_block (map (fun p => snd (fst p)) pts) ++ fluent_block (map snd pts) ++ fluent_block vs).
