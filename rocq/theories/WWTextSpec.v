(** Specification vocabulary for weight window files (independent of the reader and
    writer code). *)
From Verif Require Import PyBase PyStr WWTextModel.
From Coq Require Import Qabs.
Open Scope Q_scope.

(** magnitudes any IEEE double has (0, or between 1e-999 and 1e998) *)
Definition in_range (q : Q) : Prop := q == 0 \/ p10 (-999) <= Qabs q < p10 998.

(** [q'] is [q] to 5 significant digits: relative error at most 5e-5 (0 stays 0) *)
Definition close5 (q q' : Q) : Prop := Qabs (q' - q) <= (1 # 20000) * Qabs q.

Definition small (z : Z) : Prop := (0 <= z < 100000)%Z.
Definition int9 (z : Z) : Prop := (0 <= z < 1000000000)%Z.

(** A window that can be saved: the header describes the data (as [_build_header]
    makes it), three-component vectors, mesh counts below 100000, numbers in range. *)
Definition saveable (p : parsed) : Prop :=
  let h := p_header p in
  h_if h = 1%Z /\ h_iv h = 1%Z /\ h_probid h = s2l "Created by f4enix_ww" /\
  h_ni h = Z.of_nat (length (p_energies p)) /\ int9 (h_ni h) /\
  length (p_values p) = length (p_energies p) /\
  h_ne h = map (fun es => Z.of_nat (length es)) (p_energies p) /\ Forall int9 (h_ne h) /\
  small (h_nfx h) /\ small (h_nfy h) /\ small (h_nfz h) /\
  small (h_ncx h) /\ small (h_ncy h) /\ small (h_ncz h) /\
  Forall2 (fun es vs => Z.of_nat (length vs) = h_nfx h * h_nfy h * h_nfz h * Z.of_nat (length es))%Z (p_energies p) (p_values p) /\
  (Z.of_nat (length (p_b2i p)) = 3 * h_ncx h + 1)%Z /\
  (Z.of_nat (length (p_b2j p)) = 3 * h_ncy h + 1)%Z /\
  (Z.of_nat (length (p_b2k p)) = 3 * h_ncz h + 1)%Z /\
  length (h_origin h) = 3%nat /\ Forall in_range (h_origin h) /\
  (h_nr h = 10%Z /\ h_dirs h = None \/
   h_nr h = 16%Z /\ exists d1 d2, h_dirs h = Some (d1, d2) /\ length d1 = 3%nat /\ length d2 = 3%nat /\ Forall in_range d1 /\ Forall in_range d2) /\
  Forall in_range (p_b2i p) /\ Forall in_range (p_b2j p) /\ Forall in_range (p_b2k p) /\
  Forall (Forall in_range) (p_energies p) /\ Forall (Forall in_range) (p_values p).

(** Same window to the printed precision: all counts and the coordinate type are
    equal, all numbers agree to 5 significant digits, position by position. *)
Definition same5 (p p' : parsed) : Prop :=
  let h := p_header p in let h' := p_header p' in
  h_if h' = h_if h /\ h_iv h' = h_iv h /\ h_ni h' = h_ni h /\ h_nr h' = h_nr h /\ h_probid h' = h_probid h /\
  h_ne h' = h_ne h /\ h_nfx h' = h_nfx h /\ h_nfy h' = h_nfy h /\ h_nfz h' = h_nfz h /\
  h_ncx h' = h_ncx h /\ h_ncy h' = h_ncy h /\ h_ncz h' = h_ncz h /\
  Forall2 close5 (h_origin h) (h_origin h') /\
  match h_dirs h, h_dirs h' with
  | None, None => True
  | Some (a, b), Some (a', b') => Forall2 close5 a a' /\ Forall2 close5 b b'
  | _, _ => False
  end /\
  Forall2 close5 (p_b2i p) (p_b2i p') /\ Forall2 close5 (p_b2j p) (p_b2j p') /\ Forall2 close5 (p_b2k p) (p_b2k p') /\
  Forall2 (Forall2 close5) (p_energies p) (p_energies p') /\ Forall2 (Forall2 close5) (p_values p) (p_values p').

(** number of lines of the header *)
Definition header_lines (h : header) : nat := match h_dirs h with None => 4 | Some _ => 5 end.
