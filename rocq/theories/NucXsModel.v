(** Model of src/f4enix/input/ace.py 79-263 _continuous_energy_xs_nuclide: the table of a nuclide for a temperature, and the
    functions it returns for the types asked for.  What the endf package reads (the reactions of a nuclide, the components of a
    reaction, the sum rules, the names of the reactions) are parameters; numbers are exact rationals; the logarithmic decrement
    (alpha and np.log, 252-255) is a number of the nuclide.  A function object is taken to be true (180, 226). *)
From Coq Require Import Qabs.
From Verif Require Import PyBase PyStr LibModel AceModel.
Open Scope nat_scope.

(** the callables: Tabulated1D, Polynomial, lambda and Combination *)
Definition fn : Type := Q -> res Q.
(** ace.py 514-522 Combination: the operations one after the other, from the left *)
Definition comb (fs : list fn) (ops : list (Q -> Q -> Q)) : fn := fun x =>
  do f <- of_opt IndexError (nth_error fs 0);
  do a <- f x;
  do r <- foldM (fun (s : Q * nat) (op : Q -> Q -> Q) => let '(ans, i) := s in do g <- of_opt IndexError (nth_error fs (S i)); do b <- g x; Ok (op ans b, S i)) (a, 0) ops;
  Ok (fst r).

(** a product of a reaction: whether it is the neutron, whether its emission mode is total, its yield *)
Record product := mkProd { p_neutron : bool; p_total : bool; p_yield : fn }.
(** a reaction: for each temperature its energies and cross section; products then derived products *)
Record reaction := mkRx { r_xs : list (str * (list Q * fn)); r_products : list product }.
(** what endf.IncidentNeutron.from_ace gives: reactions by MT, components of an MT, xi (252-255) *)
Record nuclide := mkNuc { n_rx : Z -> option reaction; n_comps : Z -> list Z; n_xi : Q }.

(** ace.py 29-30 *)
Definition UNITY_MT : Z := (-1)%Z.
Definition XI_MT : Z := (-2)%Z.
(** ace.py 33 *)
Definition inelastic (sum_rules : Z -> list Z) : list Z := filter (fun mt => negb (mt =? 27)%Z) (sum_rules 3%Z).
(** ace.py 34-47 PLOT_TYPES_MT *)
Definition plot_types (sum_rules : Z -> list Z) : list (str * list Z) :=
  [(s2l "total", sum_rules 1%Z); (s2l "scatter", 2%Z :: inelastic sum_rules); (s2l "elastic", [2%Z]); (s2l "inelastic", inelastic sum_rules);
   (s2l "fission", [18%Z]); (s2l "absorption", [27%Z]); (s2l "capture", [101%Z]); (s2l "nu-fission", [18%Z]); (s2l "nu-scatter", 2%Z :: inelastic sum_rules);
   (s2l "unity", [UNITY_MT]); (s2l "slowing-down power", [2%Z; XI_MT]); (s2l "damage", [444%Z])].

(** a type: a name, an MT, or anything else *)
Inductive ty := TName (s : str) | TMt (z : Z) | TOther.
Definition op_add : Q -> Q -> Q := Qplus.
Definition op_mul : Q -> Q -> Q := Qmult.
(** str.startswith *)
Fixpoint starts (p s : str) : bool := match p, s with [], _ => true | a :: p', b :: s' => Ascii.eqb a b && starts p' s' | _, [] => false end.
(** ace.py 160-196 the loop over the types, for one of them: reactions, operations, yields *)
Definition parse_type (sum_rules : Z -> list Z) (names : str -> option Z) (n : nuclide) (t : ty) : res (list Z * list (Q -> Q -> Q) * bool) :=
  match t with
  | TName line =>
      match dget str_eqb line (plot_types sum_rules) with
      | Some l => let mts := concat (map (n_comps n) l) in
                  Ok (mts,
                      if memb Z.eqb XI_MT mts then repeat op_add (length mts - 2) ++ [op_mul] else repeat op_add (length mts - 1),
                      starts (s2l "nu") line)
      | None => match names line with
                | Some mt => let mts := n_comps n mt in Ok (mts, repeat op_add (length mts - 1), false)
                | None => Err TypeError
                end
      end
  | TMt mt => let mts := n_comps n mt in Ok (mts, repeat op_add (length mts - 1), false)
  | TOther => Err TypeError
  end.

(** nuc[mt].xs[nucT] *)
Definition xs_at (r : reaction) (temp : str) : res fn := do p <- of_opt KeyError (dget str_eqb temp (r_xs r)); Ok (snd p).
(** ace.py 222-233: the yields of the neutrons that are not total, the last one first *)
Definition add_yield (f : option fn) (p : product) : option fn :=
  if p_neutron p && negb (p_total p) then Some (match f with Some g => comb [p_yield p; g] [op_add] | None => p_yield p end) else f.
(** ace.py 202-258 the function of one reaction *)
Definition func_of (n : nuclide) (temp : str) (yields : bool) (mt : Z) : res fn :=
  if (mt =? 2)%Z then do r <- of_opt KeyError (n_rx n 2%Z); xs_at r temp
  else match n_rx n mt with
       | Some r =>
           if yields
           then match find (fun p => p_neutron p && p_total p) (r_products r) with
                | Some p => do f <- xs_at r temp; Ok (comb [f; p_yield p] [op_mul])
                | None => match fold_left add_yield (r_products r) None with
                          | Some g => do f <- xs_at r temp; Ok (comb [g; f] [op_mul])
                          | None => xs_at r temp
                          end
                end
           else xs_at r temp
       | None => if (mt =? UNITY_MT)%Z then Ok (fun _ => Ok 1%Q)
                 else if (mt =? XI_MT)%Z then Ok (fun _ => Ok (n_xi n))
                 else Ok (fun _ => Ok 0%Q)
       end.
(** ace.py 198-260 the function of one type *)
Definition type_fn (n : nuclide) (temp : str) (p : list Z * list (Q -> Q -> Q) * bool) : res fn :=
  let '(mts, ops, yields) := p in
  do fs <- mapM (func_of n temp yields) mts;
  Ok (comb (match fs with [] => [fun _ => Ok 0%Q] | _ => fs end) ops).

(** np.argmin: the index of the first smallest element *)
Fixpoint argmin_from (best : Q) (at_ i : nat) (l : list Q) : nat :=
  match l with [] => at_ | q :: r => if Qle_bool best q then argmin_from best at_ (S i) r else argmin_from q i (S i) r end.
Definition argmin (l : list Q) : res nat := match l with [] => Err ValueError | q :: r => Ok (argmin_from q 0 1 r) end.
(** float(temp.replace("K", "")) *)
Definition kelvin (t : str) : res Q := parse_float (filter (fun c => negb (Ascii.eqb c "K"%char)) t).
(** ace.py 113 strT *)
Definition str_temp (t : Q) : str := str_of_Z (qround_even t) ++ s2l "K".
(** ace.py 134-156: the temperatures of reaction 1, and the one to use; [k] is endf.data.K_BOLTZMANN *)
Definition pick_temp (k t : Q) (temps : list str) : res str :=
  do kts <- mapM (fun s => do v <- kelvin s; Ok (v * k)%Q) temps;
  if memb str_eqb (str_temp t) temps then Ok (str_temp t)
  else do i <- argmin (map (fun v => Qabs (v - t * k)) kts);
       of_opt IndexError (nth_error temps i).

(** ace.py 130-260 for the data of a nuclide *)
Definition nuclide_xs (sum_rules : Z -> list Z) (names : str -> option Z) (k : Q) (n : nuclide) (types : list ty) (t : Q) : res (list Q * list fn) :=
  do r1 <- of_opt KeyError (n_rx n 1%Z);
  do temp <- pick_temp k t (map fst (r_xs r1));
  do p <- of_opt KeyError (dget str_eqb temp (r_xs r1));
  do ps <- mapM (parse_type sum_rules names n) types;
  do fs <- mapM (type_fn n temp) ps;
  Ok (fst p, fs).
(** ace.py 79-263: the files are a dictionary, or those of an xsdir (AceModel.ace_files); [read] is IncidentNeutron.from_ace *)
Definition continuous_energy_xs (sum_rules : Z -> list Z) (names : str -> option Z) (k : Q) (read : str -> res nuclide)
    (this library : str) (files : res (list ((str * str) * str))) (types : list ty) (t : Q) : res (list Q * list fn) :=
  do d <- files;
  do path <- of_opt KeyError (dget key_eqb (this, library) d);
  do n <- read path;
  nuclide_xs sum_rules names k n types t.
