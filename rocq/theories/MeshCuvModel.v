(** Model of src/f4enix/output/meshtal/aux_meshtal_functions.py: cell-under-voxel (CUV) meshes and CDGS
    sources.  Floats are exact rationals; files as in MeshModel. *)
From Verif Require Import PyBase PyStr PyText DataModel MeshModel.
Open Scope nat_scope.

(** the cells of a voxel: (number, volume fraction), values and errors *)
Notation cinfo := (Z * Q)%type.
Definition cells := (list cinfo * list (list Q) * list (list Q))%type.

Definition floats (l : str) : res (list Q) := mapM parse_float (split l).

(** 213-222 the cell lines of a CUV voxel; the flag: the line has a total and its error.  The totals are
    collected and then dropped: np.append (236-238) returns a new array that is not kept *)
Definition read_cuv_head (f : file) : res ((cinfo * bool) * file) :=
  let (l, f1) := readline f in
  match split l with
  | w0 :: w1 :: ws =>
      do c <- parse_float w0; do v <- parse_float w1;
      match ws with
      | [a; b] => do _ <- parse_float a; do _ <- parse_float b; Ok ((qtrunc c, v, true), f1)
      | _ => Ok ((qtrunc c, v, false), f1)
      end
  | [w0] => do _ <- parse_float w0; Err IndexError
  | [] => Err IndexError
  end.
(** 206-237 _read_cuv_cell_info.  With totals for some of the cells only, tot_value[ic] (236) is out of range *)
Definition read_cuv_vals (f : file) : res ((list Q * list Q) * file) :=
  let (l, f1) := readline f in
  do v <- floats l;
  let (l2, f2) := readline f1 in
  do e <- floats l2;
  Ok ((v, e), f2).
Definition read_cuv_cells (n : nat) (f : file) : res (cells * file) :=
  do '(ci, f1) <- loop n read_cuv_head f;
  do '(ve, f2) <- loop n read_cuv_vals f1;
  if existsb snd ci && negb (forallb snd ci) then Err IndexError
  else Ok ((map fst ci, map fst ve, map snd ve), f2).

(** 276-293 _select_cells *)
Fixpoint select_cells (filt : list Z) (ci : list cinfo) (vs es : list (list Q)) : Q * cells :=
  match ci, vs, es with
  | c :: ci', v :: vs', e :: es' =>
      let '(s, (ci2, vs2, es2)) := select_cells filt ci' vs' es' in
      if memb Z.eqb (fst c) filt then ((snd c + s)%Q, (c :: ci2, v :: vs2, e :: es2)) else (s, (ci2, vs2, es2))
  | _, _, _ => (0%Q, ([], [], []))
  end.

(** 296-308 _get_mean_value.  Rows of different lengths are rejected (numpy also accepts errors of
    length 1, which it broadcasts) *)
Definition dot (frac : list Q) (col : list Q) : Q := qsum (map (fun p => fst p * snd p)%Q (combine frac col)).
Definition column (k : nat) (m : list (list Q)) : list Q := map (fun r => nth k r 0%Q) m.
Definition times_rows (vs es : list (list Q)) : list (list Q) :=
  map (fun p => map (fun q => fst q * snd q)%Q (combine (fst p) (snd p))) (combine vs es).
Definition mean_value (ci : list cinfo) (vs es : list (list Q)) : res (list Q * list Q) :=
  match vs with
  | [] => Err IndexError
  | v0 :: _ =>
      let n := length v0 in
      if forallb (fun r => length r =? n) vs && forallb (fun r => length r =? n) es
      then let frac := map snd ci in
           let vm := map (fun k => dot frac (column k vs)) (seq 0 n) in
           Ok (vm, map (fun k => let v := nth k vm 0%Q in
                                 if Qeq_bool v 0 then 0%Q else (dot frac (column k (times_rows vs es)) / v)%Q) (seq 0 n))
      else Err ValueError
  end.

(** 320-347 _get_cuv_element.  [norm]: None, "ctot" (Some true) or "celf" (Some false); any other value is
    refused as None is *)
Definition cuv_element (norm : option bool) (filt : option (list Z)) (f : file) : res ((list Q * list Q) * file) :=
  let (l, f1) := readline f in
  match nth_error (split l) 4 with
  | None => Err IndexError
  | Some wv =>
      do vol <- parse_float wv;
      match nth_error (split l) 5 with
      | None => Err IndexError
      | Some wn =>
          do qn <- parse_float wn;
          let n := Z.to_nat (qtrunc qn) in
          do '((ci, vs, es), f2) <- read_cuv_cells n f1;
          match vs with
          | [] => Err IndexError
          | v0 :: _ =>
              let '(sumf, (ci', vs', es')) := match filt with
                                              | Some l => select_cells l ci vs es
                                              | None => (1%Q, (ci, vs, es))
                                              end in
              if Qeq_bool sumf 0 then Ok ((repeat 0%Q (length v0), repeat 0%Q (length v0)), f2)
              else
                do '(v, e) <- (if 1 <? n then mean_value ci' vs' es'
                               else match vs', es' with a :: _, b :: _ => Ok (a, b) | _, _ => Err IndexError end);
                match norm with
                | Some true => Ok ((map (fun x => x * vol)%Q v, e), f2)
                | Some false => Ok ((map (fun x => x / sumf)%Q v, e), f2)
                | None => Err ValueError
                end
          end
      end
  end.

(** 921-947 _get_CUVmesh_data for one time bin (with more, 948 reshapes the arrays of the previous time;
    not modelled).  Element n is voxel (i1, i2, i3) with n = (i1 * nx2 + i2) * nx3 + i3 *)
Definition voxel_array (ny nz : nat) (els : list (list Q * list Q)) : arr := fun t e k j i =>
  match nth_error els ((i * ny + j) * nz + k) with
  | Some (v, er) => match nth_error v e, nth_error er e with Some a, Some b => if t =? 0 then Some (a, b) else None | _, _ => None end
  | None => None
  end.
Definition cuv_data (norm : option bool) (filt : option (list Z)) (ne nz ny nx : nat) (f : file) : res arr :=
  do '(els, _) <- loop (nx * ny * nz) (fun f => do '((v, e), f1) <- cuv_element norm filt f;
                                                 do v' <- assign ne v; do e' <- assign ne e; Ok ((v', e'), f1)) (skipline 1 f);
  Ok (voxel_array ny nz els).

(** 38-43 _get_multilines: words of as many lines as needed.  None: the file ends first and the loop
    never does; the words are converted together at the end *)
Fixpoint multi_words (n : nat) (acc : list str) (f : file) : option (list str * file) :=
  if n <=? length acc then Some (acc, f)
  else match f with
       | [] => None
       | l :: f' => multi_words n (acc ++ split l) f'
       end.
(** a call that may not return *)
Definition mres (A : Type) := option (res A).
Definition mbind {A B} (m : mres A) (k : A -> mres B) : mres B :=
  match m with None => None | Some (Err e) => Some (Err e) | Some (Ok a) => k a end.
Definition multilines (n : nat) (f : file) : mres (list Q * file) :=
  match multi_words n [] f with
  | None => None
  | Some (ws, f') => Some (do qs <- mapM parse_float ws; Ok (qs, f'))
  end.

(** 240-273 _read_cdgs_cell_info: one cell *)
Definition read_cdgs_cell (ne : nat) (f : file) : mres ((cinfo * (list Q * list Q)) * file) :=
  let (l, f1) := readline f in
  match split l with
  | w0 :: w1 :: ws =>
      mbind (Some (do c <- parse_float w0; do v <- parse_float w1; Ok (qtrunc c, v))) (fun ci =>
      mbind (multilines ne f1) (fun '(vs, f2) =>
      mbind (multilines ne f2) (fun '(es, f3) =>
      if ne =? 1 then Some (Ok ((ci, (vs, es)), f3))
      else Some (do '(t, u) <- match ws with
                               | [] => Ok (qsum vs, 0%Q)
                               | [a] => do t <- parse_float a; Ok (t, 0%Q)
                               | a :: b :: _ => do t <- parse_float a; do u <- parse_float b; Ok (t, u)
                               end;
                 Ok ((ci, (vs ++ [t], es ++ [u])), f3)))))
  | [w0] => Some (do _ <- parse_float w0; Err IndexError)
  | [] => Some (Err IndexError)
  end.
Fixpoint mloop {A} (n : nat) (body : file -> mres (A * file)) (f : file) : mres (list A * file) :=
  match n with
  | O => Some (Ok ([], f))
  | S n' => mbind (body f) (fun '(x, f1) => mbind (mloop n' body f1) (fun '(xs, f2) => Some (Ok (x :: xs, f2))))
  end.

(** 350-391 _get_cdgs_element as _get_CDGSmesh_data calls it (no norm, no filter).  [None] in the result:
    end of the data.  When the fractions sum to 0 two values are returned where three are
    unpacked (979): ValueError *)
Definition cdgs_element (ne : nat) (f : file) : mres (option (Z * (list Q * list Q)) * file) :=
  let (l, f1) := readline f in
  match split l with
  | [] => Some (Err IndexError)
  | w0 :: rest =>
      if str_eqb w0 (s2l "end_source_data") then Some (Ok (None, f1))
      else
        mbind (Some (do q <- parse_float w0; Ok (qtrunc q))) (fun index =>
        match rev (w0 :: rest) with
        | wn :: wv :: _ =>
            mbind (Some (do _ <- parse_float wv; do qn <- parse_float wn; Ok (Z.to_nat (qtrunc qn)))) (fun n =>
            mbind (mloop n (read_cdgs_cell ne) f1) (fun '(cs, f2) =>
            let ci := map fst cs in let vs := map (fun c => fst (snd c)) cs in let es := map (fun c => snd (snd c)) cs in
            if Qeq_bool (qsum (map snd ci)) 0 then Some (Err ValueError)
            else Some (do '(v, e) <- (if 1 <? n then mean_value ci vs es
                                      else match vs, es with a :: _, b :: _ => Ok (a, b) | _, _ => Err IndexError end);
                       Ok (Some (index, (v, e)), f2))))
        | _ => Some (Err IndexError)
        end)
  end.

(** 957-993 _get_CDGSmesh_data for one time bin: the loop over the voxels.  [st]: the element read and
    not yet used, if any; [Some None]: the end was read *)
Fixpoint cdgs_loop (ne nread : nat) (is : list nat) (st : option (option (Z * (list Q * list Q)))) (f : file) : mres (list (list Q * list Q)) :=
  match is with
  | [] => Some (Ok [])
  | i :: is' =>
      mbind (match st with
             | Some x => Some (Ok (x, f))
             | None => cdgs_element nread f
             end) (fun '(x, f1) =>
      let zero := (repeat 0%Q ne, repeat 0%Q ne) in
      match x with
      | Some (index, (v, e)) =>
          if (Z.of_nat i =? index - 1)%Z
          then mbind (Some (do v' <- assign ne v; do e' <- assign ne e; Ok (v', e'))) (fun ve =>
               mbind (cdgs_loop ne nread is' None f1) (fun r => Some (Ok (ve :: r))))
          else mbind (cdgs_loop ne nread is' (Some x) f1) (fun r => Some (Ok (zero :: r)))
      | None => mbind (cdgs_loop ne nread is' (Some None) f1) (fun r => Some (Ok (zero :: r)))
      end)
  end.
Definition cdgs_data (skip ne nz ny nx : nat) (f : file) : mres arr :=
  mbind (cdgs_loop ne (if ne =? 1 then ne else ne - 1) (seq 0 (nx * ny * nz)) None (skipline skip f)) (fun els =>
  Some (Ok (voxel_array ny nz els))).
