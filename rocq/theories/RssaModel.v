(** Model of src/f4enix/output/rssa.py: reading RSSA binary files, particle masks, current plots.
    A byte is an integer between 0 and 255.  A file is the list of its bytes (what is left to read).
    The machine is little endian, as numpy's native types are on the supported platforms. *)
From Coq Require Import Qabs.
From Verif Require Import PyBase PyStr.
Open Scope nat_scope.

Definition bytes := list Z.
(** np.int32 / np.int64 / raw 64-bit word of a little-endian buffer (lines 27-31) *)
Fixpoint le (b : bytes) : Z := match b with [] => 0%Z | x :: b' => (x + 256 * le b')%Z end.
Definition signed (bits : Z) (z : Z) : Z := if (z <? 2 ^ (bits - 1))%Z then z else (z - 2 ^ bits)%Z.
Definition int32 (b : bytes) : Z := signed 32 (le b).
Definition int64 (b : bytes) : Z := signed 64 (le b).

(** np.fromfile(file, INT, 1)[0]: IndexError when fewer than 4 bytes are left *)
Definition read_int (f : bytes) : res (Z * bytes) :=
  match f with
  | a :: b :: c :: d :: r => Ok (int32 [a; b; c; d], r)
  | _ => Err IndexError
  end.
(** 419-427 _read_fortran_record; np.fromfile reads what is left when the count is negative or too large *)
Definition read_record (f : bytes) : res (bytes * bytes) :=
  do '(c1, r) <- read_int f;
  let n := if (c1 <? 0)%Z then length r else Z.to_nat c1 in
  do '(c2, r') <- read_int (skipn n r);
  if (c1 =? c2)%Z then Ok (firstn n r, r') else Err ValueError.

(** bytes.decode("UTF-8") (line 434) succeeds on exactly these byte strings *)
Definition btw (a b x : Z) : bool := ((a <=? x) && (x <=? b))%Z.
Fixpoint utf8 (s : bytes) : bool :=
  match s with
  | [] => true
  | a :: s1 =>
      if btw 0 127 a then utf8 s1
      else match s1 with
           | [] => false
           | b :: s2 =>
               if btw 194 223 a && btw 128 191 b then utf8 s2
               else match s2 with
                    | [] => false
                    | c :: s3 =>
                        if (a =? 224)%Z && btw 160 191 b && btw 128 191 c
                           || (btw 225 236 a || btw 238 239 a) && btw 128 191 b && btw 128 191 c
                           || (a =? 237)%Z && btw 128 159 b && btw 128 191 c then utf8 s3
                        else match s3 with
                             | [] => false
                             | d :: s4 =>
                                 if ((a =? 240)%Z && btw 144 191 b || btw 241 243 a && btw 128 191 b
                                     || (a =? 244)%Z && btw 128 143 b) && btw 128 191 c && btw 128 191 d
                                 then utf8 s4 else false
                             end
                    end
           end
  end.
Fixpoint zprefix (p s : bytes) : bool :=
  match p, s with
  | [], _ => true
  | x :: p', y :: s' => (x =? y)%Z && zprefix p' s'
  | _ :: _, [] => false
  end.
(** "d1suned" in format_record_id (line 435) *)
Fixpoint zcontains (p s : bytes) : bool :=
  zprefix p s || match s with [] => false | _ :: s' => zcontains p s' end.
Definition ascii_bytes (s : str) : bytes := map (fun c => Z.of_N (N_of_ascii c)) s.

(** np.frombuffer(data, T, 1, off)[0] with an item of [n] bytes *)
Definition field (n off : nat) (data : bytes) : res bytes :=
  if (off + n <=? length data)%nat then Ok (firstn n (skipn off data)) else Err ValueError.
Definition field32 (off : nat) (data : bytes) : res Z := do b <- field 4 off data; Ok (int32 b).
Definition field64 (off : nat) (data : bytes) : res Z := do b <- field 8 off data; Ok (int64 b).

Record surface := mkSurf { su_id : Z; su_info : Z; su_type : Z; su_nparams : Z; su_params : list Z }.
Record params := mkParams { np1 : Z; nrss : Z; nrcd : Z; njsw : Z; niss : Z; niwr : Z; mipts : Z; kjaq : Z; surfaces : list surface }.

(** 468-478 one surface record *)
Definition read_surface (kj : Z) (data : bytes) : res surface :=
  do id <- field32 0 data;
  do info <- (if (kj =? 1)%Z then field32 4 data else Ok (-1)%Z);
  do ty <- field32 8 data;
  do n <- field32 12 data;
  if (length data <? 16) || negb ((length data - 16) mod 4 =? 0) then Err ValueError
  else Ok (mkSurf id info ty n (map int32 (packs 4 (skipn 16 data)))).
Fixpoint read_surfaces (n : nat) (kj : Z) (f : bytes) : res (list surface * bytes) :=
  match n with
  | O => Ok ([], f)
  | S n' => do '(data, f1) <- read_record f;
            do s <- read_surface kj data;
            do '(l, f2) <- read_surfaces n' kj f1; Ok (s :: l, f2)
  end.
(** 430-503 _read_header *)
Definition read_header (f : bytes) : res (params * bytes) :=
  do '(d1, f1) <- read_record f;
  if negb (utf8 d1) then Err ValueError
  else if negb (zcontains (ascii_bytes (s2l "d1suned")) d1) then Err NotImplementedError
  else
    do '(d2, f2) <- read_record f1;
    do a_np1 <- field64 0 d2; do a_nrss <- field64 8 d2; do a_nrcd <- field32 16 d2;
    do a_njsw <- field32 20 d2; do a_niss <- field64 24 d2;
    if negb (a_nrcd =? 11)%Z then Err NotImplementedError
    else if negb (a_np1 <? 0)%Z then Err NotImplementedError
    else
      do '(d3, f3) <- read_record f2;
      do b12 <- field 12 0 d3;
      let a_niwr := int32 (firstn 4 b12) in
      let a_mipts := int32 (firstn 4 (skipn 4 b12)) in
      let a_kjaq := int32 (skipn 8 b12) in
      do '(ss, f4) <- read_surfaces (Z.to_nat a_njsw) a_kjaq f3;
      if (0 <? a_niwr)%Z then (do '(_, _) <- read_record f4; Err NotImplementedError)
      else
        do '(_, f5) <- read_record f4;
        Ok (mkParams a_np1 a_nrss a_nrcd a_njsw a_niss a_niwr a_mipts a_kjaq ss, f5).
(** 506-520 _read_tracks: the 64-bit words of each track *)
Definition read_tracks (f : bytes) : res (list (list Z)) :=
  if length f mod 96 =? 0
  then Ok (packs 11 (map le (packs 8 (concat (map (fun r => firstn 88 (skipn 4 r)) (packs 96 f))))))
  else Err ValueError.
(** 95-104 _read_rssa *)
Definition read_rssa (f : bytes) : res (params * list (list Z)) :=
  do '(p, f1) <- read_header f; do t <- read_tracks f1; Ok (p, t).

(** the number of a 64-bit word (np.float64, IEEE binary64) *)
Inductive fl := Fin (q : Q) | Inf (neg : bool) | NaN.
Definition f64 (w : Z) : fl :=
  let s := (w / 2 ^ 63 mod 2 =? 1)%Z in
  let e := (w / 2 ^ 52 mod 2 ^ 11)%Z in
  let m := (w mod 2 ^ 52)%Z in
  let v (m e : Z) : Q := if (0 <=? e)%Z then inject_Z (m * 2 ^ e) else Qmake m (Z.to_pos (2 ^ (- e))) in
  if (e =? 2047)%Z then if (m =? 0)%Z then Inf s else NaN
  else let q := if (e =? 0)%Z then v m (-1074)%Z else v (2 ^ 52 + m)%Z (e - 1075)%Z in
       Fin (if s then Qopp q else q).
Definition track := list fl.
Definition values (t : list (list Z)) : list track := map (map f64) t.

(** 329-349 masks: the indices of the tracks whose second value satisfies the comparison (a
    comparison with NaN is false) *)
Definition nine8 : Q := inject_Z 900000000.
Definition abs_lt (x : fl) : bool := match x with Fin q => negb (Qle_bool nine8 (Qabs q)) | _ => false end.
Definition abs_ge (x : fl) : bool := match x with Fin q => Qle_bool nine8 (Qabs q) | Inf _ => true | NaN => false end.
Definition where_ {A} (p : A -> bool) (l : list A) : list nat :=
  map fst (filter (fun ix => p (snd ix)) (combine (seq 0 (length l)) l)).
Definition word_b (t : track) : fl := nth 1 t NaN.
Definition mask_neutron (ts : list track) : list nat := where_ (fun t => abs_lt (word_b t)) ts.
Definition mask_photon (ts : list track) : list nat := where_ (fun t => abs_ge (word_b t)) ts.
(** 351-357 _get_particle_mask *)
Inductive particle := Neutron | Photon | BadParticle.
Definition particle_mask (p : particle) (ts : list track) : res (list nat) :=
  match p with Neutron => Ok (mask_neutron ts) | Photon => Ok (mask_photon ts) | BadParticle => Err ValueError end.

(** 359-392 the columns; infinite and NaN coordinates are not modelled in the plots (read as 0) *)
Definition fin (x : fl) : Q := match x with Fin q => q | _ => 0%Q end.
Definition t_wgt (t : track) : Q := fin (nth 2 t NaN).
Definition t_x (t : track) : Q := fin (nth 5 t NaN).
Definition t_y (t : track) : Q := fin (nth 6 t NaN).
Definition t_z (t : track) : Q := fin (nth 7 t NaN).

(** np.intersect1d of two increasing index arrays *)
Definition intersect (a b : list nat) : list nat := filter (fun i => memb Nat.eqb i b) a.
(** min() and max() of an array; ValueError when it is empty *)
Definition qmin (a b : Q) : Q := if Qle_bool a b then a else b.
Definition qmax (a b : Q) : Q := if Qle_bool a b then b else a.
Definition amin (l : list Q) : res Q := match l with [] => Err ValueError | x :: l' => Ok (fold_left qmin l' x) end.
Definition amax (l : list Q) : res Q := match l with [] => Err ValueError | x :: l' => Ok (fold_left qmax l' x) end.
(** np.linspace(a, b, n + 1) *)
Definition linspace (a b : Q) (n : nat) : list Q :=
  map (fun i => (a + inject_Z (Z.of_nat i) * ((b - a) / inject_Z (Z.of_nat n)))%Q) (seq 0 (S n)).
(** 523-537 _closest; 0/0 becomes the smallest 64-bit integer *)
Definition int_min : Z := (- 2 ^ 63)%Z.
Definition closest (axis : list Q) (vals : list Q) : res (list Z) :=
  match axis with
  | l0 :: l1 :: _ =>
      let lm := (l1 - l0)%Q in
      Ok (map (fun v => let i := if Qeq_bool lm 0 then int_min else qtrunc ((v - l0) / lm) in
                        if (i =? Z.of_nat (length axis) - 1)%Z then (Z.of_nat (length axis) - 2)%Z else i) vals)
  | _ => Err IndexError
  end.
(** an index of an axis of length [n]; negative indices count from the end *)
Definition index (n : nat) (i : Z) : res nat :=
  if (0 <=? i)%Z && (i <? Z.of_nat n)%Z then Ok (Z.to_nat i)
  else if (- Z.of_nat n <=? i)%Z && (i <? 0)%Z then Ok (Z.to_nat (i + Z.of_nat n))
  else Err IndexError.
Definition grid := list (list Q).
Fixpoint upd {A} (n : nat) (f : A -> A) (l : list A) : list A :=
  match l, n with
  | [], _ => []
  | x :: l', O => f x :: l'
  | x :: l', S n' => x :: upd n' f l'
  end.
(** np.add.at(grid, (zi, ti), w) *)
Definition add_at (nz nt : nat) (g : grid) (items : list (Z * Z * Q)) : res grid :=
  foldM (fun g it => let '(zi, ti, w) := it in
                     do a <- index nz zi; do b <- index nt ti; Ok (upd a (upd b (Qplus w)) g)) g items.
Definition zeros (nz nt : nat) : grid := repeat (repeat 0%Q nt) nz.

(** the plotted data of the two figures: the values, the number of tracks of each cell (the error is
    1/sqrt of it), the two axes and the area of a cell.  Colours, labels and files are not modelled. *)
Record plot := mkPlot { pl_values : grid; pl_counts : grid; pl_z : list Q; pl_theta : list Q; pl_area : Q }.
Section Plot.
  (** np.angle(x + 1j*y) and np.linalg.norm([x, y]) *)
  Context (angle radius : Q -> Q -> Q).
  Definition t_theta (t : track) : Q := angle (t_x t) (t_y t).
  Definition pick (ts : list track) (mask : list nat) : list track := map (fun i => nth i ts []) mask.
  (** 105-221 _calculate_grid_axes_cyl and _generate_figures_current_cyl *)
  Definition figures (p : params) (ts : list track) (part : particle) (nz nt : nat) (intensity : Q) (mask : option (list nat)) : res plot :=
    do pm <- particle_mask part ts;
    let sel := pick ts (match mask with None => pm | Some m => intersect pm m end) in
    let zs := map t_z sel in
    let ths := map t_theta sel in
    do z0 <- amin zs; do z1 <- amax zs; do t0 <- amin ths; do t1 <- amax ths;
    let za := linspace z0 z1 nz in
    let ta := linspace t0 t1 nt in
    do zi <- closest za zs; do ti <- closest ta ths;
    do g <- add_at nz nt (zeros nz nt) (combine (combine zi ti) (map t_wgt sel));
    do n <- add_at nz nt (zeros nz nt) (combine (combine zi ti) (map (fun _ => 1%Q) sel));
    do r <- (match ts with t :: _ => Ok (radius (t_x t) (t_y t)) | [] => Err IndexError end);
    let area := Qabs (r * (nth 1 ta 0 - nth 0 ta 0) * (nth 1 za 0 - nth 0 za 0))%Q in
    Ok (mkPlot (map (map (fun v => (v / area / inject_Z (Z.abs (np1 p)) * intensity)%Q)) g)
               (map (map (fun c => if Qeq_bool c 0 then 1%Q else c)) n) za ta area).
  (** 268-287 plot_cyl: the masks.  np.intersect1d(None, mask1) fails, or gives an empty mask when
      mask1 is empty *)
  Definition plot_cyl (p : params) (ts : list track) (part : particle) (nz nt : nat) (norm : Q)
    (x_range z_range : option (Q * Q)) : res plot :=
    let mask := match z_range with
                | Some (a, b) => Some (intersect (where_ (fun t => negb (Qle_bool (t_z t) a)) ts) (where_ (fun t => negb (Qle_bool b (t_z t))) ts))
                | None => None
                end in
    do mask' <- (match x_range with
                 | None => Ok mask
                 | Some (a, b) =>
                     do r <- (match ts with t :: _ => Ok (radius (t_x t) (t_y t)) | [] => Err IndexError end);
                     let m1 := where_ (fun t => negb (Qle_bool (r * t_theta t) a)) ts in
                     let m2 := where_ (fun t => negb (Qle_bool b (r * t_theta t))) ts in
                     match mask with
                     | None => match m1 with [] => Ok (Some []) | _ => Err TypeError end
                     | Some m => Ok (Some (intersect (intersect m m1) m2))
                     end
                 end);
    figures p ts part nz nt norm mask'.
End Plot.
