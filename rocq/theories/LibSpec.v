(** What the theorems about nuclear data libraries and zaids mean, in terms of a set of xsdir
    entries and an isotope table, without the search order of the code. *)
From Verif Require Import PyBase PyStr PyText LibModel.
Open Scope nat_scope.

(** library [l] is loaded and its xsdir file has an entry for [zaid] with suffix [l] *)
Definition carries (m : libman) (l zaid : str) : Prop :=
  exists x, In (l, x) (l_data m) /\ In (zaid, l) x.
Definition loaded (m : libman) (l : str) : Prop := exists x, In (l, x) (l_data m).
(** the suffixes end in the same particle letter *)
Definition same_particle (a b : str) : Prop := exists p q c, a = p ++ [c] /\ b = q ++ [c].

(** a zaid text "ZZZAAA": the digits of Z followed by exactly three digits of A *)
Definition zaid_text (z a : N) (s : str) : Prop :=
  exists d1 d2 d3, s = str_of_N z ++ [dig_chr d1; dig_chr d2; dig_chr d3] /\
    (d1 < 10 /\ d2 < 10 /\ d3 < 10 /\ a = d1 * 100 + d2 * 10 + d3)%N.
Definition natural (zaid : str) : Prop := exists e, zaid = e ++ s2l "000".

(** the isotopes of an element in the table, as (zaid, abundance, mass) *)
Definition isotopes_of (t : list isorow) (z : N) : list (str * Q * Q) :=
  map (fun r => (r_idx r, r_abund r, r_mass r)) (filter (fun r => N.eqb (r_Z r) z) t).
Definition amount (tr : list (str * transl)) : Q := qsum (map (fun x => snd (fst (snd x))) tr).

(** well formed isotope tables: zaid texts agree with Z and A and are pairwise different,
    symbols are non-empty words of letters *)
Definition word (s : str) : Prop := s <> [] /\ Forall (fun c => is_letter c = true) s.
Definition wf_table (t : list isorow) : Prop :=
  (forall r, In r t -> zaid_text (r_Z r) (r_A r) (r_idx r) /\ word (r_E r)) /\
  NoDup (map r_idx t).
(** symbol [e] stands for the element number [z] and for no other in the table, and conversely *)
Definition symbol (t : list isorow) (z : N) (e : str) : Prop :=
  (exists r, In r t /\ r_Z r = z /\ r_E r = e) /\
  (forall r, In r t -> (r_Z r = z <-> r_E r = e)).
(** the formula of an isotope: "E-A", or just "E" for the natural element *)
Definition formula (e : str) (a : N) : str := if (a =? 0)%N then e else e ++ s2l "-" ++ str_of_N a.
(** the formula used by activation libraries: "EA", with a final "m" when metastable *)
Definition formula_m (e : str) (a : N) (metastable : bool) : str := e ++ str_of_N a ++ (if metastable then s2l "m" else []).
