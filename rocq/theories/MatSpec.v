(** Vocabulary for the statements about materials. *)
From Verif Require Import PyBase PyStr PyText LibModel LibSpec MatModel.
Open Scope nat_scope.

(** a zaid as the readers produce it: three characters of isotope, no dot inside the parts *)
Definition wf_zaid (z : zaid) : Prop :=
  length (z_iso z) = 3 /\ ~ In dot (z_elem z) /\ ~ In dot (z_iso z) /\
  match z_lib z with Some l => ~ In dot l | None => True end.
Definition wf_material (m : material) : Prop := Forall wf_zaid (all_zaids m).

(** nuclide and library of a zaid *)
Definition nuclide (z : zaid) : str * str * option str := (z_elem z, z_iso z, z_lib z).
Definition total (zs : list zaid) : Q := qsum (map z_frac zs).
(** the elements shown (and written) by a submaterial *)
Definition shown (s : submat) : list zaid := concat (s_elems s).
Definition consistent (s : submat) : Prop := s_elems s = collapse (s_zaids s).
(** elements of a list at their first occurrence *)
Fixpoint firsts_aux (seen l : list str) : list str :=
  match l with
  | [] => []
  | x :: l' => if memb str_eqb x seen then firsts_aux seen l' else x :: firsts_aux (x :: seen) l'
  end.
Definition firsts (l : list str) : list str := firsts_aux [] l.

(** atomic mass of a zaid, when the library manager knows it *)
Definition massof (E : matenv) (z : zaid) : Q := match zmass E z with Ok q => q | Err _ => 0%Q end.
Definition has_masses (E : matenv) (m : material) : Prop :=
  forall z, In z (all_zaids m) -> exists q, zmass E z = Ok q /\ (0 < q)%Q.
(** atom-fraction and mass-fraction materials *)
Definition atom_material (m : material) : Prop := (forall z, In z (all_zaids m) -> (0 <= z_frac z)%Q) /\ (0 < tot_fraction m)%Q.
Definition mass_material (m : material) : Prop := (forall z, In z (all_zaids m) -> (z_frac z <= 0)%Q) /\ (tot_fraction m < 0)%Q.
(** the same zaids, in the same submaterials, with fractions given by [f] *)
Definition refrac (f : zaid -> Q) (m m' : material) : Prop :=
  mt_name m' = mt_name m /\
  Forall2 (fun s s' => Forall2 (fun z z' => nuclide z' = nuclide z /\ (z_frac z' == f z)%Q) (s_zaids s) (s_zaids s')) (mt_subs m) (mt_subs m').
(** mean atomic mass of a material: sum x_i A_i / sum x_i for atom fractions x_i,
    sum w_i / sum (w_i / A_i) for mass fractions -w_i *)
Definition sum_over (f : zaid -> Q) (m : material) : Q := qsum (map f (all_zaids m)).
Definition atom_mean_mass (E : matenv) (m : material) : Q :=
  (sum_over (fun z => z_frac z * massof E z) m / sum_over z_frac m)%Q.
Definition mass_mean_mass (E : matenv) (m : material) : Q :=
  (sum_over z_frac m / sum_over (fun z => z_frac z / massof E z) m)%Q.
(** every zaid is a row of the isotope table *)
Definition tabulated (E : matenv) (m : material) : Prop :=
  forall z, In z (all_zaids m) -> exists r, In r (l_iso (m_lib E)) /\ r_idx r = z_elem z ++ z_iso z /\ (0 < r_mass r)%Q.

(** ** Translation *)
(** the library requested for a zaid: the given one; the one for its old library; or the first
    library whose list names the zaid *)
Definition target (nl : newlib) (z : zaid) (l : str) : Prop :=
  match nl with
  | ToLib l0 => l = l0
  | ByOldLib d => exists old, z_lib z = Some old /\ In (old, l) d
  | ByZaid d => exists d1 zs d2, d = d1 ++ (l, zs) :: d2 /\ In (z_num z) zs /\ forall l' zs', In (l', zs') d1 -> ~ In (z_num z) zs'
  end.
Definition wf_newlib (nl : newlib) : Prop := match nl with ByOldLib d => NoDup (map fst d) | _ => True end.
Definition dosimetry (E : matenv) (z : zaid) : Prop := exists l, z_lib z = Some l /\ In l (m_dosim E).
(** the part of the fraction [f] that goes to one entry (library, abundance, mass) of a conversion:
    abundance for atom fractions, relative weight for mass fractions (negative) *)
Definition share (tr : list (str * transl)) (f : Q) (v : transl) : Q :=
  let ab := snd (fst v) in let ma := snd v in
  if Qlt_le_dec f 0 then (ab * ma / qsum (map (fun kv => snd (fst (snd kv)) * snd (snd kv)) tr) * f)%Q else (ab * f)%Q.
(** what one zaid becomes *)
Inductive translated (E : matenv) (nl : newlib) (z : zaid) : list zaid -> Prop :=
| T_dosimetry l z' : target nl z l -> dosimetry E z -> nuclide z' = nuclide z -> (z_frac z' == z_frac z)%Q -> translated E nl z [z']
| T_converted l tr block : target nl z l -> ~ dosimetry E z -> convertZaid (m_lib E) (z_num z) l = Ok tr ->
    Forall2 (fun kv z' => (fst kv = z_elem z' ++ z_iso z' /\ length (z_iso z') = Nat.min 3 (length (fst kv))) /\ z_lib z' = fst (fst (snd kv)) /\ (z_frac z' == share tr (z_frac z) (snd kv))%Q) tr block ->
    translated E nl z block
| T_dropped l : target nl z l -> ~ dosimetry E z -> convertZaid (m_lib E) (z_num z) l = Err ValueError -> translated E nl z [].
(** the zaid is not lost: it is a dosimetry zaid or it has a non-empty conversion *)
Definition translatable (E : matenv) (nl : newlib) (z : zaid) : Prop :=
  dosimetry E z \/ exists l tr, target nl z l /\ convertZaid (m_lib E) (z_num z) l = Ok tr /\ tr <> [].

(** ** Material lists *)
Inductive listop (A : Type) := LAppend (m : A) | LExtend (ms : list A) | LRemove (m : A).
Arguments LAppend {A}. Arguments LExtend {A}. Arguments LRemove {A}.
(** the state after an operation; a failing remove (ValueError) leaves the list as it is *)
Definition do_op {A} (name : A -> str) (same : A -> A -> bool) (L : matlist A) (o : listop A) : matlist A :=
  match o with
  | LAppend m => ml_append name L m
  | LExtend ms => ml_extend name L ms
  | LRemove m => fst (ml_remove name same L m)
  end.
(** [m] is the last entry of [l] called [key], up to case *)
Definition last_named {A} (name : A -> str) (key : str) (l : list A) (m : A) : Prop :=
  exists l1 l2, l = l1 ++ m :: l2 /\ upper (name m) = upper key /\ forall m', In m' l2 -> upper (name m') <> upper key.
Definition names {A} (name : A -> str) (l : list A) : list str := map (fun m => upper (name m)) l.

(** ** Mixtures *)
(** the source material [m] brought to fractions of type [t]; the contribution of percentage
    [perc] keeps the proportions and adds up to [perc] ([-perc] for mass fractions) *)
Definition signed (t : ftype) (q : Q) : Q := match t with Atom => q | Mass => (- q)%Q end.
Definition mixes (t : ftype) (m1 : material) (perc : Q) (group : list submat) : Prop :=
  ~ (tot_fraction m1 == 0)%Q /\ mt_subs m1 <> [] /\
  Forall2 (fun s s' => Forall2 (fun z z' => nuclide z' = nuclide z /\ (z_frac z' == signed t (perc * (z_frac z / tot_fraction m1)))%Q)
                               (s_zaids s) (s_zaids s') /\ consistent s') (mt_subs m1) group.
