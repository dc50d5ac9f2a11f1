(** Model of src/f4enix/input/ww_gvr/{ratios_calculation,weight_window,geometry}.py.
    Numbers: the definitions are generic in the number type through the record
    [ops]; they are run and reasoned about at exact rationals [Qops] (IEEE infinities
    and NaN produced by division are kept as explicit values) and, for powers, at the
    reals.  numpy arrays of shape (nz, ny, nx) are nested lists; dictionaries are
    association lists in insertion order; in-place array updates followed by the
    [values] setter are modelled by the new value. *)
From Verif Require Import PyBase.

Record ops (A : Type) := mkops {
  o0 : A; o1 : A;
  omul : A -> A -> A;
  odiv : A -> A -> A;          (* only used for a non-zero divisor *)
  oltb : A -> A -> bool;
  oeqb : A -> A -> bool }.
Arguments o0 {A}. Arguments o1 {A}. Arguments omul {A}. Arguments odiv {A}.
Arguments oltb {A}. Arguments oeqb {A}.

Definition Qltb (a b : Q) : bool := negb (Qle_bool b a).
Definition Qops : ops Q := mkops Q 0%Q 1%Q Qmult Qdiv Qltb Qeq_bool.

(** IEEE results of a division: finite, +inf, -inf, nan (signed zeros are not
    distinguished). *)
Inductive ext (A : Type) := Fin (a : A) | PInf | NInf | NaN.
Arguments Fin {A}. Arguments PInf {A}. Arguments NInf {A}. Arguments NaN {A}.

Definition arr (A : Type) := list (list (list A)).      (* [k][j][i] *)

Inductive particle := Neutron | Photon.
Definition particle_eqb (a b : particle) : bool :=
  match a, b with Neutron, Neutron | Photon, Photon => true | _, _ => false end.

Definition ebin (A : Type) := list (Q * arr A).          (* {energy: array} *)
Definition pvals (A : Type) := list (particle * ebin A). (* {particle: {energy: array}} *)

Section Generic.
  Context {A : Type} (O : ops A).

  (** array.shape; a numpy array is rectangular, so the first row is as good as any *)
  Definition dim0 (a : arr A) : nat := length a.
  Definition dim1 (a : arr A) : nat := length (hd [] a).
  Definition dim2 (a : arr A) : nat := length (hd [] (hd [] a)).

  (** array[k, j, i] with the validity test of ratios_calculation.py 50-58: an index
      that is negative or >= the dimension is not used. *)
  Definition get3z (a : arr A) (k j i : Z) : option A :=
    if (k <? 0)%Z || (j <? 0)%Z || (i <? 0)%Z then None else
    match nth_error a (Z.to_nat k) with
    | Some p => match nth_error p (Z.to_nat j) with
                | Some r => nth_error r (Z.to_nat i)
                | None => None end
    | None => None
    end.

  (** ratios_calculation.py 38-59 _find_neighbour_values: six values, 0 when the
      neighbour does not exist. *)
  Definition neighbour_values (a : arr A) (k j i : Z) : list A :=
    map (fun ix => match ix with (k', j', i') =>
           match get3z a k' j' i' with Some v => v | None => o0 O end end)
      [ (k, j, i + 1); (k, j, i - 1); (k, j + 1, i); (k, j - 1, i); (k + 1, j, i); (k - 1, j, i) ]%Z.

  (** ratios_calculation.py 68: np.divide(value, neighbour) *)
  Definition divx (a b : A) : ext A :=
    if oeqb O b (o0 O)
    then (if oeqb O a (o0 O) then NaN else if oltb O (o0 O) a then PInf else NInf)
    else Fin (odiv O a b).
  (** ratios_calculation.py 71: np.where(ratios < 1, 1 / ratios, ratios) *)
  Definition invert_small (r : ext A) : ext A :=
    match r with
    | Fin x => if oltb O x (o1 O)
               then (if oeqb O x (o0 O) then PInf else Fin (odiv O (o1 O) x))
               else Fin x
    | NInf => Fin (o0 O)      (* -inf < 1, and 1/-inf = -0.0 *)
    | PInf => PInf
    | NaN => NaN
    end.
  (** ratios_calculation.py 74: ratios[np.isfinite(ratios)] *)
  Definition finite_only (l : list (ext A)) : list A :=
    flat_map (fun r => match r with Fin x => [x] | _ => [] end) l.

  (** np.max of a non-empty list *)
  Definition omax (a b : A) : A := if oltb O a b then b else a.
  Fixpoint lmax (x : A) (l : list A) : A :=
    match l with [] => x | y :: ys => lmax (omax x y) ys end.

  (** ratios_calculation.py 64-77 _calculate_max_ratio_from_neighbours *)
  Definition max_ratio_of (value : A) (nbs : list A) : A :=
    match finite_only (map (fun b => invert_small (divx value b)) nbs) with
    | [] => o1 O
    | x :: xs => lmax x xs
    end.

  Definition ratio_at (a : arr A) (k j i : nat) : A :=
    match get3z a (Z.of_nat k) (Z.of_nat j) (Z.of_nat i) with
    | Some v => max_ratio_of v (neighbour_values a (Z.of_nat k) (Z.of_nat j) (Z.of_nat i))
    | None => o1 O
    end.

  (** ratios_calculation.py 9-35 calculate_max_ratio_array *)
  Definition calc_ratios (a : arr A) : arr A :=
    map (fun k => map (fun j => map (fun i => ratio_at a k j i)
      (seq 0 (dim2 a))) (seq 0 (dim1 a))) (seq 0 (dim0 a)).

  (** numpy reshape(ne, nz, ny, nx): ValueError on a size mismatch.  (numpy also
      allows zero dimensions; the theorems exclude them.) *)
  Definition reshape4 (ne nz ny nx : nat) (flat : list A) : res (list (arr A)) :=
    if Nat.eqb (length flat) (ne * nz * ny * nx)
    then Ok (packs nz (packs ny (packs nx flat))) else Err ValueError.
  Definition flatten3 (a : arr A) : list A := concat (concat a).

  (** weight_window.py 130-132 (for j, energy in enumerate(energies)):
      successive assignments to a dictionary keyed by the energy. *)
  Definition energy_dict (energies : list Q) (arrs : list (arr A)) : ebin A :=
    fold_left (fun d kv => dset Qeq_bool (fst kv) (snd kv) d) (combine energies arrs) [].

  Definition particles_of_count (n : nat) : list particle :=
    if Nat.ltb 1 n then [Neutron; Photon] else [Neutron].

  (** weight_window.py 119-138 _nested_to_values_by_particle; [ni] is the header's
      number of particles, [nz ny nx] its fine mesh counts. *)
  Definition nested_to_values (ni nz ny nx : nat) (energies : list (list Q)) (values : list (list A))
    : res (pvals A) :=
    foldM (fun d ip => match ip with (i, p) =>
             do es <- of_opt IndexError (nth_error energies i);
             do vs <- of_opt IndexError (nth_error values i);
             do r <- reshape4 (length es) nz ny nx vs;
             Ok (dset particle_eqb p (energy_dict es r) d) end)
          [] (combine (seq 0 2) (particles_of_count ni)).

  (** weight_window.py 221-231 particles *)
  Definition particles (v : pvals A) : list particle := particles_of_count (length v).

  (** weight_window.py 140-155 _format_nested_energies_and_values *)
  Definition format_nested (v : pvals A) : res (list (list Q) * list (list A)) :=
    do bs <- mapM (fun p => of_opt KeyError (dget particle_eqb p v)) (particles v);
    Ok (map dkeys bs, map (fun b => concat (map flatten3 (dvals b))) bs).

  (** Names of the arrays of the VTK grid, geometry.py 87, 106, 109: the energy is
      printed with 2 decimals, so the name only carries round(100*energy). *)
  Inductive gname := GVal (p : particle) (e2 : Z) | GRatio (p : particle) (e2 : Z) | GMax (p : particle).
  Definition gname_eqb (a b : gname) : bool :=
    match a, b with
    | GVal p e, GVal q f | GRatio p e, GRatio q f => particle_eqb p q && Z.eqb e f
    | GMax p, GMax q => particle_eqb p q
    | _, _ => false
    end.
  Definition e2 (e : Q) : Z := qround_even (e * 100).

  (** geometry.py 133-144 _prepare_values_for_cylindrical_grid: repeat along axis 0
      [ext] times when ext > 1, then swap axes 0 and 1. *)
  Definition repeat0 (m : nat) (a : arr A) : arr A := flat_map (fun p => repeat p m) a.
  Definition swap01 (a : arr A) : arr A :=
    map (fun j => map (fun k => nth j (nth k a []) []) (seq 0 (dim0 a))) (seq 0 (dim1 a)).
  Definition prepare_cyl (ext : nat) (a : arr A) : arr A :=
    swap01 (if Nat.ltb 1 ext then repeat0 ext a else a).

  (** A geometry: cartesian, or cylindrical with a theta extension factor
      (geometry.py 135-136: grid.n_cells // total_ints). *)
  Inductive geom := Cartesian | Cylindrical (ext : nat).
  (** geometry.py 112-131 fill_grid_array *)
  Definition grid_array (g : geom) (a : arr A) : list A :=
    match g with Cartesian => flatten3 a | Cylindrical e => flatten3 (prepare_cyl e a) end.

  Definition grid := list (gname * list A).
  Definition gset (n : gname) (a : list A) (g : grid) : grid := dset gname_eqb n a g.

  (** geometry.py 74-90 fill_grid_values *)
  Definition fill_values (ge : geom) (v : pvals A) (g : grid) : grid :=
    fold_left (fun g pb => fold_left (fun g ea => gset (GVal (fst pb) (e2 (fst ea))) (grid_array ge (snd ea)) g)
                                     (snd pb) g) v g.

  (** np.max(list of arrays, axis=0) *)
  Fixpoint zipw {X Y Z} (f : X -> Y -> Z) (l : list X) (l' : list Y) : list Z :=
    match l, l' with x :: xs, y :: ys => f x y :: zipw f xs ys | _, _ => [] end.
  Definition max3 (a b : arr A) : arr A := zipw (zipw (zipw omax)) a b.
  Definition max_over (l : list (arr A)) : arr A :=
    match l with [] => [] | a :: l' => fold_left max3 l' a end.

  (** geometry.py 92-111 fill_grid_ratios *)
  Definition fill_ratios (ge : geom) (v : pvals A) (g : grid) : grid :=
    fold_left (fun g pb =>
      let g1 := fold_left (fun g ea => gset (GRatio (fst pb) (e2 (fst ea))) (grid_array ge (snd ea)) g) (snd pb) g in
      gset (GMax (fst pb)) (grid_array ge (max_over (dvals (snd pb)))) g1) v g.

  (** A WW object: geometry, _values, _ratios and the arrays stored in the grid. *)
  Record ww := mkww { ge : geom; vals : pvals A; rats : pvals A; gr : grid }.

  Definition map_pv (f : particle -> Q -> arr A -> arr A) (v : pvals A) : pvals A :=
    map (fun pb => (fst pb, map (fun ea => (fst ea, f (fst pb) (fst ea) (snd ea))) (snd pb))) v.

  (** weight_window.py 157-168 _calculate_ratios (particles: neutron, and photon when
      the dictionary has two entries; every entry, as the dictionary only ever holds
      those keys in that order) *)
  Definition calculate_ratios (v : pvals A) : pvals A := map_pv (fun _ _ a => calc_ratios a) v.

  (** weight_window.py 193-198, the values setter *)
  Definition set_values (w : ww) (v : pvals A) : ww :=
    let r := calculate_ratios v in
    mkww (ge w) v r (fill_ratios (ge w) r (fill_values (ge w) v (gr w))).
  (** weight_window.py 36-50 __init__ *)
  Definition new_ww (g : geom) (v : pvals A) : ww := set_values (mkww g [] [] []) v.

  Definition map3 (f : A -> A) (a : arr A) : arr A := map (map (map f)) a.

  (** weight_window.py 277-299 multiply *)
  Definition multiply (w : ww) (f : A) : ww :=
    if oeqb O f (o1 O) then w
    else set_values w (map_pv (fun _ _ a => map3 (fun x => omul O x f) a) (vals w)).

  (** weight_window.py 301-327 soften; [pow x s] is numpy's x ** s *)
  Definition soften (pow : A -> A -> A) (w : ww) (s : A) : ww :=
    if oeqb O s (o1 O) then w
    else set_values w (map_pv (fun _ _ a => map3 (fun x => pow x s) a) (vals w)).

  (** weight_window.py 329-359 add_particle: [value * norm**soft] *)
  Definition add_particle (pow : A -> A -> A) (w : ww) (norm soft : A) : res ww :=
    if Nat.eqb (length (particles (vals w))) 2 then Err ValueError else
    match dget particle_eqb Neutron (vals w) with
    | None => Err KeyError
    | Some b => Ok (set_values w (dset particle_eqb Photon
                  (map (fun ea => (fst ea, map3 (fun x => omul O x (pow norm soft)) (snd ea))) b) (vals w)))
    end.

  (** weight_window.py 361-376 remove_particle *)
  Definition remove_particle (w : ww) : res ww :=
    if Nat.eqb (length (particles (vals w))) 1 then Err ValueError else
    match dget particle_eqb Neutron (vals w) with
    | None => Err KeyError
    | Some b => Ok (set_values w [(Neutron, b)])
    end.

  (** weight_window.py 378-399 mitigate_long_histories: values[ratios > max_ratio] = 0.0 *)
  Definition mask3 (max_ratio : A) (r a : arr A) : arr A :=
    zipw (zipw (zipw (fun rv v => if oltb O max_ratio rv then o0 O else v))) r a.
  Definition ratios_of (w : ww) (p : particle) (e : Q) : arr A :=
    match dget particle_eqb p (rats w) with
    | Some b => match dget Qeq_bool e b with Some a => a | None => [] end
    | None => []
    end.
  Definition mitigate (w : ww) (max_ratio : A) : ww :=
    set_values w (map_pv (fun p e a => mask3 max_ratio (ratios_of w p e) a) (vals w)).

  (** weight_window.py 171-181 _convert_flux_values_to_gvr on the neutron values:
      np.max of all values (ValueError when there is none), then v/max * (2/(r+1)).
      [factor] is 2/(r+1); division by max = 0 gives nan/inf in numpy: [None]. *)
  Definition flux_max (b : ebin A) : option A :=
    match concat (map flatten3 (dvals b)) with [] => None | x :: xs => Some (lmax x xs) end.
  Definition flux_to_gvr (factor : A) (b : ebin A) : res (ebin A) :=
    match flux_max b with
    | None => Err ValueError
    | Some m => if oeqb O m (o0 O) then Err ZeroDivisionError (* numpy: warning and nan values *)
                else Ok (map (fun ea => (fst ea, map3 (fun x => omul O (odiv O x m) factor) (snd ea))) b)
    end.
End Generic.
Arguments ww : clear implicits.
Arguments grid : clear implicits.

(** The mutating public calls of a WW object (weight_window.py 277-401); a call that
    raises leaves the object as it was (the checks precede every update). *)
Inductive ww_call (A : Type) :=
| CMultiply (f : A) | CSoften (s : A) | CAdd (norm soft : A) | CRemove | CMitigate (r : A).
Arguments CMultiply {A}. Arguments CSoften {A}. Arguments CAdd {A}. Arguments CRemove {A}. Arguments CMitigate {A}.
Definition ww_step {A} (O : ops A) (pow : A -> A -> A) (w : ww A) (c : ww_call A) : ww A :=
  match c with
  | CMultiply f => multiply O w f
  | CSoften s => soften O pow w s
  | CAdd n s => match add_particle O pow w n s with Ok w' => w' | Err _ => w end
  | CRemove => match remove_particle O w with Ok w' => w' | Err _ => w end
  | CMitigate r => mitigate O w r
  end.
Definition ww_run {A} (O : ops A) pow (w : ww A) (cs : list (ww_call A)) : ww A :=
  fold_left (ww_step O pow) cs w.

(** x ** s for an integer exponent s, used to run the model at rationals. *)
Definition qpow_int (x s : Q) : Q := Qpower x (qtrunc s).
