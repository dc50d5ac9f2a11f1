(** The cross sections of a nuclide, independently of how the functions are put together. *)
From Coq Require Import Qabs.
From Verif Require Import PyBase PyStr AceModel NucXsModel.
Open Scope nat_scope.

(* a neutron given with its total yield *)
Definition total_neutron (p : product) : Prop := p_neutron p = true /\ p_total p = true.
(* the number of neutrons of a reaction at an energy: the first total yield if there is one, otherwise the sum of the partial ones,
   and one when there is none *)
Definition Multiplicity (ps : list product) (x nu : Q) : Prop :=
  (exists a p b, ps = a ++ p :: b /\ total_neutron p /\ Forall (fun q => ~ total_neutron q) a /\ p_yield p x = Ok nu)
  \/ (Forall (fun q => ~ total_neutron q) ps
      /\ exists ys, Forall2 (fun p y => p_yield p x = Ok y) (filter p_neutron ps) ys /\ (nu == match ys with [] => 1 | _ => qsum ys end)%Q).
(* what a reaction brings to a cross section at an energy: its own one, times its neutrons for a nu type (not for the elastic one);
   when the nuclide does not have it, 1 for the unity, xi for the decrement, nothing otherwise *)
Definition Contribution (n : nuclide) (temp : str) (nu : bool) (x : Q) (mt : Z) (v : Q) : Prop :=
  (exists r es f s, n_rx n mt = Some r /\ dget str_eqb temp (r_xs r) = Some (es, f) /\ f x = Ok s
     /\ ((mt = 2%Z \/ nu = false) /\ (v == s)%Q \/ mt <> 2%Z /\ nu = true /\ exists m, Multiplicity (r_products r) x m /\ (v == m * s)%Q))
  \/ (mt <> 2%Z /\ n_rx n mt = None /\ (v == if (mt =? -1)%Z then 1 else if (mt =? -2)%Z then n_xi n else 0)%Q).
(* the reactions of a type, and whether it counts neutrons *)
Definition Asked (sum_rules : Z -> list Z) (names : str -> option Z) (n : nuclide) (t : ty) (mts : list Z) (nu : bool) : Prop :=
  match t with
  | TName line =>
      (exists l, In (line, l) (plot_types sum_rules) /\ mts = concat (map (n_comps n) l) /\ (nu = true <-> line = s2l "nu-fission" \/ line = s2l "nu-scatter"))
      \/ (~ In line (map fst (plot_types sum_rules)) /\ nu = false /\ exists mt, names line = Some mt /\ mts = n_comps n mt)
  | TMt mt => mts = n_comps n mt /\ nu = false
  | TOther => False
  end.
(* the name of a temperature in kelvin *)
Definition temp_name (z : Z) : str := str_of_Z z ++ s2l "K".
(* z is the temperature of the list nearest to t *)
Definition Nearest (t : Q) (temps : list str) (z : Z) : Prop :=
  In (temp_name z) temps /\ forall z', In (temp_name z') temps -> (Qabs (inject_Z z - t) <= Qabs (inject_Z z' - t))%Q.
(* the reaction can be evaluated at that temperature *)
Definition Available (n : nuclide) (temp : str) (mt : Z) : Prop :=
  match n_rx n mt with Some r => exists p, dget str_eqb temp (r_xs r) = Some p | None => mt <> 2%Z end.
