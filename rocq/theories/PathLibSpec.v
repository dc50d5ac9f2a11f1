(** What a query on the pathways means, independently of the code *)
From Coq Require Import Permutation Sorted.
From Verif Require Import PyBase PyStr D1SModel LibModel PathLibModel.
Open Scope nat_scope.

(** the criteria are legal *)
Definition Legal (avail : list matcomp) (q : query) : Prop :=
  (forall l s, q_spectrum q = Some l -> In s l -> In s available_spectra)
  /\ (q_dose q = 95 \/ q_dose q = 99)%Z
  /\ (forall l m, q_materials q = Some l -> In m l ->
        exists a, In a avail /\ mc_name a = mc_name m /\ Forall2 Qeq (mc_perc a) (mc_perc m) /\ mc_elem a = mc_elem m)
  /\ (forall l t, q_times q = Some l -> In t l -> In t available_times).

(* the times asked for: all when none is given *)
Definition times_of (q : query) : list str := match q_times q with Some l => l | None => available_times end.
(* the value of row r at cooling time t *)
Definition value_at (r : prow) (t : str) (v : option Q) : Prop :=
  exists k, nth_error available_times k = Some t /\ nth k (p_vals r) None = v.

(** a row answers a query: right dose level, one of the spectra, one of the materials, and a number for at least one
    of the times *)
Definition Wanted (avail : list matcomp) (q : query) (r : prow) : Prop :=
  p_dose r = (if Z.eqb (q_dose q) 95 then s2l "Dose 95%" else s2l "Dose 99%")
  /\ In (p_spectrum r) (match q_spectrum q with Some l => l | None => available_spectra end)
  /\ (exists m, In m (match q_materials q with Some l => l | None => avail end) /\ mc_name m = p_material r)
  /\ (exists t x, In t (times_of q) /\ value_at r t (Some x)).

(** query q asks for no more than q' *)
Definition sub {A} (l l' : option (list A)) : Prop :=
  match l, l' with
  | _, None => True
  | Some a, Some b => incl a b
  | None, Some _ => False
  end.
Definition Narrower (q q' : query) : Prop :=
  q_dose q = q_dose q' /\ sub (q_spectrum q) (q_spectrum q') /\ sub (q_materials q) (q_materials q') /\ sub (q_times q) (q_times q').

(** [m] is the largest number of a list of optional numbers: None when there is none *)
Definition Largest (l : list (option Q)) (m : option Q) : Prop :=
  match m with
  | None => forall x, In x l -> x = None
  | Some q => In (Some q) l /\ forall x, In (Some x) l -> (x <= q)%Q
  end.

(** a table splits into the rows kept and the others *)
Definition Keeps (P : prow -> Prop) (lib kept : list prow) : Prop :=
  exists dropped, Permutation lib (kept ++ dropped) /\ Forall P kept /\ Forall (fun r => ~ P r) dropped.
