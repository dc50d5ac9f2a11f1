(** Proofs about collapsing (C59) and transformations (C60) *)
From Coq Require Import Lia ZArith Qabs Lqa Qfield.
From Verif Require Import PyBase PyLemmas PyStr PyStrLemmas PyText DataModel DataProofs D1SProofs2 LibModel MeshModel MeshProofs FmeshModel FmeshSpec FmeshProofs FmeshProofs2 FmeshProofs3.
Open Scope nat_scope.

Section Collapse.
  Context {R : Type}.
  Notation fm := (fmesh (R := R)).
  Definition tab := list (str * list Q).
  Definition Same (a b : tab) : Prop := forall n, dget str_eqb n a = dget str_eqb n b.
  Lemma dget_app n (a b : tab) : dget str_eqb n (a ++ b) = match dget str_eqb n a with Some v => Some v | None => dget str_eqb n b end.
  Proof. induction a as [|[k v] a IH]; [reflexivity|]. cbn [app dget]. destruct (str_eqb n k); [reflexivity|exact IH]. Qed.
  Lemma same_step a b n v : Same a b -> dget str_eqb n b = None -> Same (dset str_eqb n v a) (b ++ [(n, v)]).
  Proof.
    intros H Hn x. rewrite dget_app. cbn [dget]. destruct (str_eqb x n) eqn:E.
    - apply str_eqb_eq in E. subst x. rewrite (dget_dset_same str_eqb str_eqb_eq), Hn. reflexivity.
    - assert (x <> n) by (intros ->; rewrite (proj2 (str_eqb_eq n n) eq_refl) in E; discriminate).
      rewrite (dget_dset_other str_eqb str_eqb_eq) by auto. rewrite H. destruct (dget str_eqb x b); reflexivity.
  Qed.
  Lemma neq_eqb a b : a <> b -> str_eqb a b = false.
  Proof. intros H. destruct (str_eqb a b) eqn:E; [apply str_eqb_eq in E; contradiction|reflexivity]. Qed.
  Lemma rename_first v e a b : a <> b -> a <> snd column_labels ->
    Same (fold_left (fun d p => rename (fst p) (snd p) d) (combine [fst column_labels; snd column_labels] [a; b]) [(fst column_labels, v); (snd column_labels, e)]) [(a, v); (b, e)].
  Proof.
    intros Hab Ha. cbn [combine fold_left fst snd].
    set (V := s2l "Value - Total"). set (E := s2l "Error - Total"). change (snd column_labels) with E in *. change (fst column_labels) with V.
    assert (VE : str_eqb V E = false) by reflexivity. assert (EV : str_eqb E V = false) by reflexivity. assert (VV : str_eqb V V = true) by reflexivity. assert (EE : str_eqb E E = true) by reflexivity.
    unfold rename at 2. cbn [dget]. rewrite VV. destruct (str_eqb V a) eqn:Va.
    - apply str_eqb_eq in Va. subst a. unfold rename. cbn [dget]. rewrite EV, EE. destruct (str_eqb E b) eqn:Eb.
      + apply str_eqb_eq in Eb. subst b. intros n. reflexivity.
      + cbn [ddel]. rewrite EV, EE. cbn [dset]. rewrite (neq_eqb b V) by auto. intros n. reflexivity.
    - cbn [ddel]. rewrite VV. cbn [dset]. rewrite (neq_eqb a E) by exact Ha. unfold rename. cbn [dget]. rewrite EE. destruct (str_eqb E b) eqn:Eb.
      + apply str_eqb_eq in Eb. subst b. intros n. cbn [dget]. destruct (str_eqb n E) eqn:X; destruct (str_eqb n a) eqn:Y; try reflexivity.
        apply str_eqb_eq in X, Y. congruence.
      + cbn [ddel]. rewrite EE. cbn [dset]. rewrite (neq_eqb b a) by auto. intros n. reflexivity.
  Qed.

  Variable d : list (Z * fm).
  Implicit Types (i : item (R := R)) (is : list (item (R := R))).
  Definition names (is : list (item (R := R))) : list str := concat (map (fun i => [it_a i; it_b i]) is).
  Definition content (is : list (item (R := R))) : tab := concat (map (fun i => [(it_a i, it_v i); (it_b i, it_e i)]) is).
  Lemma content_names is : map fst (content is) = names is.
  Proof. induction is as [|i is IH]; [reflexivity|]. cbn [content names map concat app fst] in *. unfold content, names in IH. rewrite <- IH. reflexivity. Qed.
  Lemma add_ok g b i : Item d i -> Same (g_arrays g) b -> ~ In (it_a i) (map fst b) -> ~ In (it_b i) (map fst b) -> it_a i <> it_b i ->
    exists g', add_named g [it_a i; it_b i] (it_f i) = Ok g' /\ g_points g' = g_points g /\ Same (g_arrays g') (b ++ [(it_a i, it_v i); (it_b i, it_e i)]).
  Proof.
    intros [_ Hp] HS Ha Hb Hab. unfold add_named, g_get. rewrite Hp. cbn. eexists. split; [reflexivity|]. split; [reflexivity|]. cbn [g_arrays].
    change (b ++ [(it_a i, it_v i); (it_b i, it_e i)]) with (b ++ [(it_a i, it_v i)] ++ [(it_b i, it_e i)]). rewrite app_assoc.
    apply same_step; [apply same_step; [exact HS|apply dget_not; exact Ha]|].
    apply dget_not. rewrite map_app, in_app_iff. intros [X|[X|[]]]; [contradiction|]. cbn [fst] in X. contradiction.
  Qed.
  Lemma rest_ok is : forall g b, Forall (Item d) is -> Same (g_arrays g) b -> NoDup (map fst b ++ names is) ->
    exists g', fold_left (fun r kn => do g <- r; match dget Z.eqb (fst kn) d with None => Err KeyError | Some f => add_named g (snd kn) f end) (request is) (Ok g) = Ok g'
      /\ g_points g' = g_points g /\ Same (g_arrays g') (b ++ content is).
  Proof.
    induction is as [|i is IH]; intros g b HI HS ND.
    - exists g. split; [reflexivity|]. split; [reflexivity|]. unfold content. cbn [map concat]. rewrite app_nil_r. exact HS.
    - inversion HI as [|? ? Hi HI']; subst. cbn [request map fold_left bind fst snd]. rewrite (proj1 Hi).
      cbn [names map concat] in ND. unfold names in ND. cbn [map concat app] in ND.
      assert (Ha : ~ In (it_a i) (map fst b)). { intros X. apply NoDup_remove_2 in ND. apply ND. apply in_or_app. left. exact X. }
      assert (Hb : ~ In (it_b i) (map fst b)). { apply NoDup_remove_1 in ND. intros X. apply NoDup_remove_2 in ND. apply ND. apply in_or_app. left. exact X. }
      assert (Hab : it_a i <> it_b i). { apply NoDup_remove_2 in ND. intros X. apply ND. apply in_or_app. right. left. auto. }
      destruct (add_ok g b i Hi HS Ha Hb Hab) as (g1 & E1 & P1 & S1). cbn [bind]. rewrite E1.
      destruct (IH g1 _ HI' S1) as (g2 & E2 & P2 & S2).
      { rewrite map_app. cbn [map fst]. rewrite <- app_assoc. exact ND. }
      exists g2. split; [exact E2|]. split; [congruence|]. unfold content. cbn [map concat]. rewrite app_assoc. exact S2.
  Qed.
  Lemma check_plain_ok is : Forall (Item d) is -> check_plain d (map it_key is) = Ok tt.
  Proof.
    induction 1 as [|i is [Hg Hp] H IH]; [reflexivity|]. cbn [map check_plain]. rewrite Hg, Hp. cbn [map fst].
    replace (str_eqb (fst column_labels) (fst column_labels) && str_eqb (snd column_labels) (snd column_labels)) with true by reflexivity. exact IH.
  Qed.
  Lemma check_same_ok m is : Forall (Item d) is -> Forall (fun i => same_mesh m (f_mesh (it_f i)) = true) is -> check_same d (Some m) (map it_key is) = Ok tt.
  Proof.
    induction is as [|i is IH]; intros H1 H2; [reflexivity|]. inversion H1 as [|? ? Hi H1']; inversion H2 as [|? ? Hs H2']; subst.
    cbn [map check_same]. rewrite (proj1 Hi), Hs. apply IH; assumption.
  Qed.
  Lemma request_keys is : map fst (request is) = map it_key is.
  Proof. unfold request. rewrite map_map. reflexivity. Qed.
  Lemma collapse_ok i is : Forall (Item d) (i :: is) -> Forall (fun j => same_mesh (f_mesh (it_f i)) (f_mesh (it_f j)) = true) is ->
    NoDup (names (i :: is)) -> it_a i <> snd column_labels ->
    exists g, collapse_grids d (request (i :: is)) = Ok g /\ g_points g = g_points (f_grid (it_f i)) /\ Same (g_arrays g) (content (i :: is)).
  Proof.
    intros HI HS ND Ha. unfold collapse_grids. rewrite !request_keys.
    inversion HI as [|? ? Hi HI']; subst. cbn [map check_same]. rewrite (proj1 Hi), (check_same_ok _ _ HI' HS). cbn [bind].
    rewrite (check_plain_ok _ HI : check_plain d (it_key i :: map it_key is) = _). cbn [bind request map]. rewrite (proj1 Hi).
    cbn [names map concat app] in ND. assert (Hab : it_a i <> it_b i). { inversion ND as [|? ? X _]. intros E. apply X. left. auto. }
    pose proof (rename_first (it_v i) (it_e i) _ _ Hab Ha) as H0. rewrite (proj2 Hi). cbn [map fst].
    destruct (rest_ok is (mkGrid (g_points (f_grid (it_f i))) (fold_left (fun a p => rename (fst p) (snd p) a) (combine [fst column_labels; snd column_labels] [it_a i; it_b i]) [(fst column_labels, it_v i); (snd column_labels, it_e i)]))
        [(it_a i, it_v i); (it_b i, it_e i)] HI') as (g & E & P & S).
    - cbn [g_arrays]. exact H0.
    - exact ND.
    - exists g. split; [exact E|]. split; [exact P|exact S].
  Qed.
  Lemma collapse_differs i is : Forall (Item d) (i :: is) -> Exists (fun j => same_mesh (f_mesh (it_f i)) (f_mesh (it_f j)) = false) is ->
    collapse_grids d (request (i :: is)) = Err OtherError.
  Proof.
    intros HI HE. unfold collapse_grids. rewrite !request_keys. inversion HI as [|? ? Hi HI']; subst. cbn [map check_same]. rewrite (proj1 Hi).
    assert (E : check_same d (Some (f_mesh (it_f i))) (map it_key is) = Err OtherError).
    { clear HI Hi. induction HI' as [|j is Hj H IH]; [inversion HE|]. cbn [map check_same]. rewrite (proj1 Hj).
      destruct (same_mesh (f_mesh (it_f i)) (f_mesh (it_f j))) eqn:S; [|reflexivity]. apply IH. inversion HE as [? ? X|? ? X]; subst; [congruence|exact X]. }
    rewrite E. reflexivity.
  Qed.
  Lemma same_refl (m : mdata) : same_mesh m m = true.
  Proof.
    unfold same_mesh. rewrite !Nat.eqb_refl. assert (C : forall l, close l l = true).
    { intros l. unfold close. apply forallb_forall. intros [a b] H. assert (a = b).
      { revert H. clear. induction l as [|x l IH]; [contradiction|]. cbn [combine]. intros [E|H]; [injection E as <- <-; reflexivity|exact (IH H)]. }
      subst b. cbn [fst snd]. apply Qle_bool_iff. setoid_replace (a - a)%Q with 0%Q by ring. discriminate. }
    rewrite !C. destruct (md_cyl m); reflexivity.
  Qed.
End Collapse.

(** ** affine maps *)
Definition mmul (a b : mat) : mat :=
  let '((b11, b12, b13), (b21, b22, b23), (b31, b32, b33)) := b in
  let row (r : vec) : vec := let '(x, y, z) := r in (x * b11 + y * b21 + z * b31, x * b12 + y * b22 + z * b32, x * b13 + y * b23 + z * b33)%Q in
  let '(r1, r2, r3) := a in (row r1, row r2, row r3).
Lemma det_transpose m : (det (transpose m) == det m)%Q.
Proof. destruct m as [[[[a b] c] [[e f] g]] [[h i] j]]. cbn. ring. Qed.
Lemma gram m : Orthonormal m -> (det m * det m == 1)%Q.
Proof.
  destruct m as [[[[a b] c] [[e f] g]] [[h i] j]]. cbn [Orthonormal dot3 det]. intros (H1 & H2 & H3 & H4 & H5 & H6).
  setoid_replace ((a * (f * j - g * i) - b * (e * j - g * h) + c * (e * i - f * h)) * (a * (f * j - g * i) - b * (e * j - g * h) + c * (e * i - f * h)))%Q
    with ((a*a+b*b+c*c) * ((e*e+f*f+g*g) * (h*h+i*i+j*j) - (e*h+f*i+g*j) * (e*h+f*i+g*j))
          - (a*e+b*f+c*g) * ((a*e+b*f+c*g) * (h*h+i*i+j*j) - (e*h+f*i+g*j) * (a*h+b*i+c*j))
          + (a*h+b*i+c*j) * ((a*e+b*f+c*g) * (e*h+f*i+g*j) - (e*e+f*f+g*g) * (a*h+b*i+c*j)))%Q by ring.
  rewrite H1, H2, H3, H4, H5, H6. ring.
Qed.
(* the inverse of the transposed of an orthonormal matrix is the matrix itself *)
Lemma inv_ok m n : inv m = Some n -> let '((a, b, c), (d, e, f), (g, h, i)) := mmul m n in
  (a == 1 /\ b == 0 /\ c == 0 /\ d == 0 /\ e == 1 /\ f == 0 /\ g == 0 /\ h == 0 /\ i == 1)%Q.
Proof.
  destruct m as [[[[a b] c] [[d e] f]] [[g h] i]]. unfold inv. set (D := det _). destruct (Qeq_bool D 0) eqn:E; [discriminate|].
  apply Qeq_bool_neq in E. intros H. injection H as <-. cbn [mmul]. unfold D in *. cbn [det] in *. repeat split; field; exact E.
Qed.
Lemma inv_transpose m : Orthonormal m -> exists n, inv (transpose m) = Some n /\ forall p, Veq (mulv n p) (mulv m p).
Proof.
  intros HO. pose proof (gram m HO) as G.
  assert (D : ~ (det (transpose m) == 0)%Q). { rewrite det_transpose. intros X. rewrite X in G. discriminate G. }
  destruct (inv (transpose m)) as [n|] eqn:E.
  - exists n. split; [reflexivity|]. apply inv_ok in E. intros [[x y] z].
    destruct m as [[[[a b] c] [[d e] f]] [[g h] i]]. destruct n as [[[[a' b'] c'] [[d' e'] f']] [[g' h'] i']].
    cbn [transpose mmul] in E. cbn [Orthonormal dot3] in HO. destruct HO as (H1 & H2 & H3 & H4 & H5 & H6). destruct E as (E1 & E2 & E3 & E4 & E5 & E6 & E7 & E8 & E9).
    (* n = (m * m^T) n = m (m^T n) = m *)
    assert (N1 : (a' == a)%Q). { transitivity ((a*a+b*b+c*c) * a' + (a*d+b*e+c*f) * d' + (a*g+b*h+c*i) * g')%Q; [rewrite H1, H4, H5; ring|].
      transitivity (a * (a*a'+d*d'+g*g') + b * (b*a'+e*d'+h*g') + c * (c*a'+f*d'+i*g'))%Q; [ring|]. rewrite E1, E4, E7. ring. }
    assert (N2 : (b' == b)%Q). { transitivity ((a*a+b*b+c*c) * b' + (a*d+b*e+c*f) * e' + (a*g+b*h+c*i) * h')%Q; [rewrite H1, H4, H5; ring|].
      transitivity (a * (a*b'+d*e'+g*h') + b * (b*b'+e*e'+h*h') + c * (c*b'+f*e'+i*h'))%Q; [ring|]. rewrite E2, E5, E8. ring. }
    assert (N3 : (c' == c)%Q). { transitivity ((a*a+b*b+c*c) * c' + (a*d+b*e+c*f) * f' + (a*g+b*h+c*i) * i')%Q; [rewrite H1, H4, H5; ring|].
      transitivity (a * (a*c'+d*f'+g*i') + b * (b*c'+e*f'+h*i') + c * (c*c'+f*f'+i*i'))%Q; [ring|]. rewrite E3, E6, E9. ring. }
    assert (N4 : (d' == d)%Q). { transitivity ((a*d+b*e+c*f) * a' + (d*d+e*e+f*f) * d' + (d*g+e*h+f*i) * g')%Q; [rewrite H4, H2, H6; ring|].
      transitivity (d * (a*a'+d*d'+g*g') + e * (b*a'+e*d'+h*g') + f * (c*a'+f*d'+i*g'))%Q; [ring|]. rewrite E1, E4, E7. ring. }
    assert (N5 : (e' == e)%Q). { transitivity ((a*d+b*e+c*f) * b' + (d*d+e*e+f*f) * e' + (d*g+e*h+f*i) * h')%Q; [rewrite H4, H2, H6; ring|].
      transitivity (d * (a*b'+d*e'+g*h') + e * (b*b'+e*e'+h*h') + f * (c*b'+f*e'+i*h'))%Q; [ring|]. rewrite E2, E5, E8. ring. }
    assert (N6 : (f' == f)%Q). { transitivity ((a*d+b*e+c*f) * c' + (d*d+e*e+f*f) * f' + (d*g+e*h+f*i) * i')%Q; [rewrite H4, H2, H6; ring|].
      transitivity (d * (a*c'+d*f'+g*i') + e * (b*c'+e*f'+h*i') + f * (c*c'+f*f'+i*i'))%Q; [ring|]. rewrite E3, E6, E9. ring. }
    assert (N7 : (g' == g)%Q). { transitivity ((a*g+b*h+c*i) * a' + (d*g+e*h+f*i) * d' + (g*g+h*h+i*i) * g')%Q; [rewrite H5, H6, H3; ring|].
      transitivity (g * (a*a'+d*d'+g*g') + h * (b*a'+e*d'+h*g') + i * (c*a'+f*d'+i*g'))%Q; [ring|]. rewrite E1, E4, E7. ring. }
    assert (N8 : (h' == h)%Q). { transitivity ((a*g+b*h+c*i) * b' + (d*g+e*h+f*i) * e' + (g*g+h*h+i*i) * h')%Q; [rewrite H5, H6, H3; ring|].
      transitivity (g * (a*b'+d*e'+g*h') + h * (b*b'+e*e'+h*h') + i * (c*b'+f*e'+i*h'))%Q; [ring|]. rewrite E2, E5, E8. ring. }
    assert (N9 : (i' == i)%Q). { transitivity ((a*g+b*h+c*i) * c' + (d*g+e*h+f*i) * f' + (g*g+h*h+i*i) * i')%Q; [rewrite H5, H6, H3; ring|].
      transitivity (g * (a*c'+d*f'+g*i') + h * (b*c'+e*f'+h*i') + i * (c*c'+f*f'+i*i'))%Q; [ring|]. rewrite E3, E6, E9. ring. }
    cbn [mulv Veq]. rewrite N1, N2, N3, N4, N5, N6, N7, N8, N9. repeat split; reflexivity.
  - exfalso. revert E. destruct m as [[[[a b] c] [[d e] f]] [[g h] i]]. cbn [transpose inv] in *. destruct (Qeq_bool (det (a, d, g, (b, e, h), (c, f, i))) 0) eqn:X; [|discriminate].
    apply Qeq_bool_eq in X. contradiction.
Qed.
