(** What a line that places a mesh and a CDGS file say, independently of how they are read *)
From Coq Require Import Qabs.
From Verif Require Import PyBase PyStr PyText DataModel MeshModel MeshSpec MeshCuvSpec TrsfModel.
Open Scope nat_scope.

Definition V3 := (Q * Q * Q)%type.
Definition dotp (a b : V3) : Q := let '(a1, a2, a3) := a in let '(b1, b2, b3) := b in (a1 * b1 + a2 * b2 + a3 * b3)%Q.
Definition crossp (a b : V3) : V3 :=
  let '(a1, a2, a3) := a in let '(b1, b2, b3) := b in (a2 * b3 - a3 * b2, a3 * b1 - a1 * b3, a1 * b2 - a2 * b1)%Q.
Definition same (a b : V3) : Prop :=
  let '(a1, a2, a3) := a in let '(b1, b2, b3) := b in (a1 == b1 /\ a2 == b2 /\ a3 == b3)%Q.
Definition isone (x : Q) : Prop := (Qabs (x - 1) < 1 # 10 ^ 12)%Q.
(* nearer to the origin than 1e-12 *)
Definition atzero (v : V3) : Prop := (dotp v v < 1 # 10 ^ 24)%Q.
Definition zaxis (v : V3) : Prop := isone (dotp v (0, 0, 1)%Q).
(* the text is three numbers *)
Definition Coords (t : str) (v : V3) : Prop := let '(a, b, c) := v in Forall2 numeral (split t) [a; b; c].
Definition blanks (s : str) : Prop := forall c, In c s -> is_ws c = true.
(** the line of a cylindrical mesh: MCNP6, which gives the vector the angles start from, and MCNP5 *)
Definition PlaceLine (o a : V3) (vec : option V3) (l : str) : Prop :=
  exists pre t1 t2, blanks pre /\ Coords t1 o /\ Coords t2 a /\
  match vec with
  | Some v => exists t3, Coords t3 v /\
      l = pre ++ s2l "origin at" ++ t1 ++ s2l "axis in" ++ t2 ++ s2l "direction, VEC direction" ++ t3
  | None => exists tail, blanks tail /\ l = pre ++ s2l "origin at" ++ t1 ++ s2l ", axis in" ++ t2 ++ s2l "direction" ++ tail
  end.
(** the line of a CDGS source: origin, first and second direction, 43 columns each *)
Definition RecLine (o x y : V3) (l : str) : Prop :=
  exists t1 t2 t3 u2 u3, l = t1 ++ t2 ++ t3 /\ length t1 = 43 /\ length t2 = 43 /\ t2 = sp :: sp :: u2 /\ t3 = sp :: sp :: u3
    /\ Coords t1 o /\ Coords t2 x /\ Coords t3 y.
(* no displacement and no rotation *)
Definition Standard (o x y : V3) : Prop := atzero o /\ isone (dotp x (1, 0, 0)%Q) /\ isone (dotp y (0, 1, 0)%Q).

(** ** CDGS files *)
Record source := mkSource {
  s_id : Z; s_comment : str; s_cooling : Q; s_strength : Q; s_bins : bool; s_erg : list Q;
  s_x1 : list Q; s_x2 : list Q; s_x3 : list Q; s_voxels : list (nat * voxel) }.
Definition begins (p : string) (l : str) : Prop := exists r, l = s2l p ++ r.
(* a label and then the word w *)
Definition Label (P : str -> Prop) (l : str) : Prop := exists lab w ws, split l = lab :: w :: ws /\ P w.
Definition Wrap (xs : list Q) : Txt := Wrapped (length xs) (fun i => nth i xs 0%Q).
(* number of energy bins the source is given for: intervals or lines *)
Definition ebins (s : source) : nat := if s_bins s then length (s_erg s) - 1 else length (s_erg s).
Definition cells_of (s : source) : nat := intervals (s_x1 s) * intervals (s_x2 s) * intervals (s_x3 s).
Definition SourceText (s : source) : Txt := fun ls =>
  exists lid lc lm lt ln le ly lb lp b1 b2 b3 sd vts ed o x y w1 w2 w3 ws lab,
    ls = ([lid; s_comment s; lc; lm; lt; ln] ++ le ++ [ly; lb; lp] ++ b1 ++ b2 ++ b3) ++ sd :: concat vts ++ [ed]
    /\ begins "mesh_id" lid /\ Label (fun w => w = str_of_Z (s_id s)) lid
    /\ Label (fun w => numeral w (s_cooling s)) lc /\ Label (fun w => numeral w (s_strength s)) lm
    /\ Label (fun w => w = s2l "bins" <-> s_bins s = true) lt
    /\ Label (fun w => Ints w (Z.of_nat (length (s_erg s)))) ln /\ Wrap (s_erg s) le
    /\ Label (fun w => w = s2l "rec") ly
    /\ split lb = lab :: w1 :: w2 :: w3 :: ws /\ parse_int w1 = Ok (Z.of_nat (length (s_x1 s)))
    /\ parse_int w2 = Ok (Z.of_nat (length (s_x2 s))) /\ parse_int w3 = Ok (Z.of_nat (length (s_x3 s)))
    /\ RecLine o x y lp /\ Standard o x y
    /\ Wrap (s_x1 s) b1 /\ Wrap (s_x2 s) b2 /\ Wrap (s_x3 s) b3
    /\ Forall (fun l => ~ begins "source_data" l) (s_comment s :: lc :: lm :: lt :: ln :: le ++ [ly; lb; lp] ++ b1 ++ b2 ++ b3)
    /\ begins "source_data" sd
    /\ Forall2 (SrcVoxel (ebins s)) (s_voxels s) vts
    /\ Forall (fun l => ~ begins "end_source_data" l) (concat vts)
    /\ begins "end_source_data" ed /\ (exists ws', split ed = s2l "end_source_data" :: ws').
Definition Sensible (s : source) : Prop :=
  s_x1 s <> [] /\ s_x2 s <> [] /\ s_x3 s <> [] /\ ebins s <> 0
  /\ Listed 0 (cells_of s) (s_voxels s) /\ forall i v, In (i, v) (s_voxels s) -> Fills v /\ LoneFull v.
(* the number of sources, their total strength and the sources, one right after the other *)
Definition CdgsFile (ss : list source) : Txt := fun ls =>
  exists h0 h1 texts tail, ls = h0 :: h1 :: concat texts ++ tail
    /\ Label (fun w => Ints w (Z.of_nat (length ss))) h0 /\ Label (fun w => exists q, numeral w q) h1
    /\ Forall2 SourceText ss texts /\ NoDup (map s_id ss).
(** the mesh object says what the source says: its number, comment, cooling time and strength, the boundaries, the energies
    (one time bin from 0 to 1e20) and, in every voxel, the intensity and its error for each energy bin and their total *)
Definition MeshOfSource (s : source) (m : cdgs_mesh) : Prop :=
  cm_id m = str_of_Z (s_id s) /\ cm_comments m = s_comment s /\ cm_cooling m = s_cooling s /\ cm_strength m = s_strength s
  /\ (let b := cm_bounds m in bd_cyl b = false /\ bd_trsf b = None /\ bd_x1 b = s_x1 s /\ bd_x2 b = s_x2 s /\ bd_x3 b = s_x3 s
        /\ bd_e b = mkBin (s_erg s) (if s_bins s then Erg else Line) true /\ bd_t b = mkBin [0%Q; inject_Z (10 ^ 20)] Tme false)
  /\ (let ny := intervals (s_x2 s) in let nz := intervals (s_x3 s) in
      forall e k j i, e < axis (ebins s) -> k < nz -> j < ny -> i < intervals (s_x1 s) ->
        exists v er, cm_data m 0 e k j i = Some (v, er) /\ (v == intensity ((i * ny + j) * nz + k) (s_voxels s) e)%Q
          /\ (~ intensity ((i * ny + j) * nz + k) (s_voxels s) e == 0 -> er == src_error ((i * ny + j) * nz + k) (s_voxels s) e)%Q).
