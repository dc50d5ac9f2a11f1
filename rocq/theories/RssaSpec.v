(** C38-C40: the layout of an RSSA file, and the cells of a histogram. *)
From Coq Require Import Qabs.
From Verif Require Import PyBase PyStr RssaModel.
Open Scope nat_scope.

(** two's complement, little endian *)
Fixpoint le_bytes (n : nat) (z : Z) : bytes :=
  match n with O => [] | S n' => (z mod 256)%Z :: le_bytes n' (z / 256)%Z end.
(** a Fortran unformatted record *)
Definition record (data : bytes) : bytes := le_bytes 4 (Z.of_nat (length data)) ++ data ++ le_bytes 4 (Z.of_nat (length data)).
Definition fits (bits z : Z) : Prop := (- 2 ^ (bits - 1) <= z < 2 ^ (bits - 1))%Z.
Definition record_ok (data : bytes) : Prop := (Z.of_nat (length data) < 2 ^ 31)%Z.

(** what a D1S-UNED run writes: first record [title]; then the numbers of [p], padded with anything *)
Definition surface_data (s : surface) : bytes :=
  le_bytes 4 (su_id s) ++ le_bytes 4 (su_info s) ++ le_bytes 4 (su_type s) ++ le_bytes 4 (su_nparams s) ++ concat (map (le_bytes 4) (su_params s)).
Definition header2 (p : params) (pad : bytes) : bytes :=
  le_bytes 8 (np1 p) ++ le_bytes 8 (nrss p) ++ le_bytes 4 (nrcd p) ++ le_bytes 4 (njsw p) ++ le_bytes 8 (niss p) ++ pad.
Definition header3 (p : params) (pad : bytes) : bytes := le_bytes 4 (niwr p) ++ le_bytes 4 (mipts p) ++ le_bytes 4 (kjaq p) ++ pad.
Definition header_file (title : bytes) (p : params) (pad2 pad3 summary : bytes) : bytes :=
  record title ++ record (header2 p pad2) ++ record (header3 p pad3) ++ concat (map (fun s => record (surface_data s)) (surfaces p)) ++ record summary.
Definition track_record (t : list Z) : bytes := record (concat (map (le_bytes 8) t)).
Definition rssa_file (title : bytes) (p : params) (pad2 pad3 summary : bytes) (tracks : list (list Z)) : bytes :=
  header_file title p pad2 pad3 summary ++ concat (map track_record tracks).

Definition surface_ok (kj : Z) (s : surface) : Prop :=
  fits 32 (su_id s) /\ fits 32 (su_info s) /\ fits 32 (su_type s) /\ fits 32 (su_nparams s) /\ Forall (fits 32) (su_params s) /\
  record_ok (surface_data s) /\ (kj <> 1%Z -> su_info s = (-1)%Z).
Definition params_ok (p : params) : Prop :=
  fits 64 (np1 p) /\ fits 64 (nrss p) /\ fits 32 (njsw p) /\ fits 64 (niss p) /\ fits 32 (niwr p) /\ fits 32 (mipts p) /\ fits 32 (kjaq p) /\
  nrcd p = 11%Z /\ (np1 p < 0)%Z /\ (niwr p <= 0)%Z /\ njsw p = Z.of_nat (length (surfaces p)) /\ Forall (surface_ok (kjaq p)) (surfaces p).
(** the first record names the code and is text *)
Definition title_ok (title : bytes) : Prop :=
  utf8 title = true /\ exists a b, title = a ++ ascii_bytes (s2l "d1suned") ++ b.
(** eleven 64-bit words *)
Definition track_ok (t : list Z) : Prop := length t = 11 /\ Forall (fun w => 0 <= w < 2 ^ 64)%Z t.

(** the i-th of [n] equal intervals of [a, b]; the last one contains b *)
Definition edge (a b : Q) (n i : nat) : Q := (a + inject_Z (Z.of_nat i) * ((b - a) / inject_Z (Z.of_nat n)))%Q.
Definition in_interval (a b : Q) (n i : nat) (v : Q) : Prop :=
  (edge a b n i <= v)%Q /\ ((v < edge a b n (S i))%Q \/ S i = n /\ (v == b)%Q).
(** the smallest and the largest of some numbers *)
Definition least (l : list Q) (a : Q) : Prop := In a l /\ Forall (fun v => (a <= v)%Q) l.
Definition greatest (l : list Q) (b : Q) : Prop := In b l /\ Forall (fun v => (v <= b)%Q) l.
(** [sums R total l]: total is the sum of the weights of the elements of [l] that satisfy R *)
Inductive sums {A} (R : A -> Prop) (w : A -> Q) : Q -> list A -> Prop :=
| sums_nil q : (q == 0)%Q -> sums R w q []
| sums_in q x l : R x -> sums R w (q - w x) l -> sums R w q (x :: l)
| sums_out q x l : ~ R x -> sums R w q l -> sums R w q (x :: l).
(** the tracks a plot uses: [x] is the position along the perimeter *)
Definition is_particle (part : particle) (t : track) : Prop :=
  match part with
  | Neutron => exists q, word_b t = Fin q /\ (Qabs q < 900000000)%Q
  | Photon => (exists q, word_b t = Fin q /\ (900000000 <= Qabs q)%Q) \/ exists s, word_b t = Inf s
  | BadParticle => False
  end.
Definition within (r : option (Q * Q)) (v : Q) : Prop := match r with None => True | Some (a, b) => (a < v /\ v < b)%Q end.
Definition selects (part : particle) (xr zr : option (Q * Q)) (x : track -> Q) (sel ts : list track) : Prop :=
  exists keep, (forall t, keep t = true <-> is_particle part t /\ within zr (t_z t) /\ within xr (x t)) /\ sel = filter keep ts.
Definition cell (g : grid) (i j : nat) : Q := nth j (nth i g []) 0%Q.
(** position along the perimeter: the angle times the radius of the first track *)
Definition perimeter (angle radius : Q -> Q -> Q) (ts : list track) (t : track) : Q := match ts with t0 :: _ => (radius (t_x t0) (t_y t0) * t_theta angle t)%Q | [] => 0%Q end.

(** UTF-8: the bytes of a character, given by its number *)
Definition scalar (c : Z) : Prop := (0 <= c < 55296 \/ 57344 <= c < 1114112)%Z.
Definition encode (c : Z) : bytes :=
  (if c <? 128 then [c]
   else if c <? 2048 then [192 + c / 64; 128 + c mod 64]
   else if c <? 65536 then [224 + c / 4096; 128 + c / 64 mod 64; 128 + c mod 64]
   else [240 + c / 262144; 128 + c / 4096 mod 64; 128 + c / 64 mod 64; 128 + c mod 64])%Z.
(** the columns of a track *)
Definition track_of (a b wgt erg tme x y z u v c : fl) : track := [a; b; wgt; erg; tme; x; y; z; u; v; c].
