(** Vocabulary for the statements about the tables of materials. *)
From Verif Require Import PyBase PyStr PyText LibModel LibSpec MatModel MatSpec MatInfoModel.
Open Scope nat_scope.

(** the element symbol of a zaid: that of the first row of the isotope table with its atomic number *)
Definition first_row (t : list isorow) (z : Z) (r : isorow) : Prop :=
  exists t1 t2, t = t1 ++ r :: t2 /\ Z.of_N (r_Z r) = z /\ forall r', In r' t1 -> Z.of_N (r_Z r') <> z.
Definition symbol_of (E : matenv) (z : zaid) (e : str) : Prop :=
  exists n r, parse_int (z_elem z) = Ok n /\ first_row (l_iso (m_lib E)) n r /\ r_E r = e.
(** "Fe-56 [26056]", "Fe [26000]" *)
Definition label_of (E : matenv) (z : zaid) (s : str) : Prop :=
  exists e a, symbol_of E z e /\ parse_int (z_iso z) = Ok a /\
    s = e ++ (if (0 <? a)%Z then s2l "-" ++ str_of_Z a else []) ++ s2l " [" ++ z_elem z ++ z_iso z ++ s2l "]".
(** [o] is a/b: missing when b is zero *)
Definition ratio (o : option Q) (a b : Q) : Prop :=
  ((b == 0)%Q -> o = None) /\ (~ (b == 0)%Q -> exists q, o = Some q /\ (q == a / b)%Q).
(** [p] picks the zaids of [zs] with property [P] *)
Definition picks (p : zaid -> bool) (P : zaid -> Prop) (zs : list zaid) : Prop := forall y, In y zs -> (p y = true <-> P y).
(** submaterials are numbered from 1 *)
Definition nth_sub (m : material) (k : nat) (s : submat) : Prop := 1 <= k /\ nth_error (mt_subs m) (k - 1) = Some s.
(** the order of the rows of a table: submaterial, then symbol *)
Fixpoint str_lt (a b : str) : Prop :=
  match a, b with
  | _, [] => False
  | [], _ :: _ => True
  | x :: a', y :: b' => (N_of_ascii x < N_of_ascii y)%N \/ (x = y /\ str_lt a' b')
  end.
Definition row_lt (r r' : erow) : Prop := e_sub r < e_sub r' \/ (e_sub r = e_sub r' /\ str_lt (e_elem r) (e_elem r')).
(** the atom and mass fractions shown for a material: those of the card when they are of that kind, and otherwise the
    converted ones, adding up to 1 (to -1 for mass fractions) *)
Definition atom_frac (E : matenv) (m : material) (z : zaid) : Q :=
  if Qlt_le_dec (tot_fraction m) 0 then (z_frac z / massof E z / sum_over (fun y => z_frac y / massof E y) m)%Q else z_frac z.
Definition mass_frac (E : matenv) (m : material) (z : zaid) : Q :=
  if Qlt_le_dec 0 (tot_fraction m) then (- (z_frac z * massof E z) / sum_over (fun y => z_frac y * massof E y) m)%Q else z_frac z.
(** sum of [f] over the zaids picked by [p] *)
Definition sum_of (f : zaid -> Q) (p : zaid -> bool) (zs : list zaid) : Q := qsum (map f (filter p zs)).
(** the mass of a zaid in its material, up to a common factor *)
Definition mass_weight (E : matenv) (m : material) (z : zaid) : Q :=
  if Qlt_le_dec (tot_fraction m) 0 then (- z_frac z)%Q else (z_frac z * massof E z)%Q.
Definition osum (l : list (option Q)) : Q := qsum (map (fun o => match o with Some q => q | None => 0%Q end) l).
(** one row of the complete table, for the zaids of [zs] picked by [P] *)
Definition row_for (E : matenv) (m : material) (k : nat) (zs : list zaid) (P : zaid -> Prop) (r : crow) : Prop :=
  c_sub r = k /\
  (exists a, c_atom r = Some a /\ forall p, picks p P zs -> (a == sum_of (atom_frac E m) p zs)%Q) /\
  (exists a, c_mass r = Some a /\ forall p, picks p P zs -> (a == sum_of (mass_frac E m) p zs)%Q).
(** the in-line information [i] of the zaid [z] of a submaterial with zaids [zs]: its formula, its percentage in its
    element, and the mass fraction of its element in the submaterial *)
Definition inl_for (E : matenv) (m : material) (zs : list zaid) (z : zaid) (i : inl) : Prop :=
  (exists l, label_of E z l /\ l = in_name i ++ s2l " [" ++ z_elem z ++ z_iso z ++ s2l "]") /\
  (forall p, picks p (fun y => z_elem y = z_elem z) zs -> ~ (total (filter p zs) == 0)%Q /\ (in_ab i == 100 * (z_frac z / total (filter p zs)))%Q) /\
  exists e, symbol_of E z e /\ forall p, picks p (fun y => symbol_of E y e) zs -> ratio (in_weight i) (sum_of (mass_weight E m) p zs) (qsum (map (mass_weight E m) zs)).
(** the isotope table knows the zaid *)
Definition known (E : matenv) (z : zaid) : Prop := exists l, label_of E z l.
(** what an entry (text, fraction) of from_zaids stands for: a formula such as Fe, Fe-56 (the natural element without a
    number), or the digits of a zaid *)
Inductive entry (E : matenv) : str * Q -> zaid -> Prop :=
| E_formula e z a f zd : symbol (l_iso (m_lib E)) z e -> (a < 1000)%N -> zaid_text z a (z_num zd) -> length (z_iso zd) = 3 -> z_lib zd = None -> z_frac zd = f ->
    entry E (formula e a, f) zd
| E_number s f zd : Forall (fun c => is_digit c = true) s -> 3 <= length s -> z_num zd = s -> length (z_iso zd) = 3 -> z_lib zd = None -> z_frac zd = f -> entry E (s, f) zd.
