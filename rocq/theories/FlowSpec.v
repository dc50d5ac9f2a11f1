(** Vocabulary for the work flow of a D1S calculation: reaction file, then translation. *)
From Verif Require Import PyBase PyStr PyText D1SModel LibModel LibSpec MatModel MatSpec PathsModel PathsSpec.
Open Scope nat_scope.

(** the activation library lists, for the zaid of this number in the materials, a reaction whose
    daughter the irradiation file schedules *)
Definition activated (D : actdata) (act : str) (f : ifile) (ms : list material) (num : str) : Prop :=
  exists mt d i, material_path D act ms num mt d /\ In i (f_scheds f) /\ i_daughter i = d.
(** the zaids of two lists of materials correspond, submaterial by submaterial, zaid by zaid *)
Definition zaid_by_zaid (R : zaid -> zaid -> Prop) (ms ms' : list material) : Prop :=
  Forall2 (fun m m' => mt_name m' = mt_name m /\ Forall2 (fun s s' => Forall2 R (s_zaids s) (s_zaids s')) (mt_subs m) (mt_subs m')) ms ms'.
(** the zaids of the materials, as a set *)
Definition zaid_in (ms : list material) (z : zaid) : Prop := exists m s, In m ms /\ In s (mt_subs m) /\ In z (s_zaids s).
(** the natural element of a zaid *)
Definition element_of (z : zaid) : str := z_elem z ++ s2l "000".

(** activation data as shipped: an isotope table with short symbols, and, in the sheet of the
    library, MT numbers of at most six characters and daughters of the table, such as Mn56 or Co60m *)
Definition tidy (D : actdata) (lib : str) : Prop :=
  wf_table (a_iso D) /\ (forall r, In r (a_iso D) -> (r_Z r < 1000)%N /\ length (r_E r) <= 3) /\
  forall df row, In (lib, df) (a_sheets D) -> In row df -> (-99999 <= a_mt row <= 999999)%Z /\
    exists r a mt, In r (a_iso D) /\ a_daughter row = formula_m (r_E r) a mt /\ (a < 900)%N.
(** every zaid of the materials is written as a number, as in 1001 and 26000 *)
Definition numbered (ms : list material) : Prop := forall z, zaid_in ms z -> exists n a, zaid_text n a (z_elem z ++ z_iso z).
