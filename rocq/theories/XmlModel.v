(** Model of the XML (OpenMC) output of materials, src/f4enix/input/materials.py 45-70, 201-220, 531-557, 1018-1039, 1554-1577, and of
    the part of xml.etree.ElementTree it uses.  The text of a number, str(x), is a parameter. *)
From Coq Require Import Qabs.
From Verif Require Import PyBase PyStr PyText LibModel D1SModel MatModel MatInfoModel.
Open Scope nat_scope.

(** xml.etree.ElementTree.Element: tag, attributes in the order given, text, tail and children *)
Inductive xml := Elem (tag : str) (attrs : list (str * str)) (text tail : option str) (kids : list xml).
(** ET.Element and ET.SubElement without text *)
Definition element (tag : str) (attrs : list (str * str)) (kids : list xml) : xml := Elem tag attrs None None kids.
Definition x_tail (e : xml) : option str := let 'Elem _ _ _ tl _ := e in tl.
Definition with_tail (tl : option str) (e : xml) : xml := let 'Elem tag at_ tx _ ks := e in Elem tag at_ tx tl ks.

(** "not x or not x.strip()" *)
Definition hollow (x : option str) : bool := match x with None => true | Some s => match strip s with [] => true | _ => false end end.
Definition fill (x : option str) (s : str) : option str := if hollow x then Some s else x.
(** "\n" + level * "  " *)
Definition margin (level : nat) : str := nl :: repeat sp (2 * level).
(** the last child of the loop of 64-67 *)
Fixpoint on_last {A} (f : A -> A) (l : list A) : list A :=
  match l with [] => [] | [x] => [f x] | x :: l' => x :: on_last f l' end.
(** materials.py 45-70 indent *)
Fixpoint indent (level : nat) (e : xml) : xml :=
  let 'Elem tag at_ tx tl ks := e in
  match ks with
  | [] => if 0 <? level then Elem tag at_ tx (fill tl (margin level)) [] else e
  | _ => Elem tag at_ (fill tx (margin level ++ [sp; sp])) (fill tl (margin level))
              (on_last (fun k => with_tail (fill (x_tail k) (margin level)) k) (map (indent (S level)) ks))
  end.

(** ElementTree._escape_attrib *)
Definition escape_c (c : ascii) : str :=
  if Ascii.eqb c "&" then s2l "&amp;" else if Ascii.eqb c "<" then s2l "&lt;" else if Ascii.eqb c ">" then s2l "&gt;"
  else if Ascii.eqb c """" then s2l "&quot;" else if Ascii.eqb c "013" then s2l "&#13;" else if Ascii.eqb c "010" then s2l "&#10;"
  else if Ascii.eqb c "009" then s2l "&#09;" else [c].
Definition escape (s : str) : str := flat_map escape_c s.
Definition attr_text (a : str * str) : str := sp :: fst a ++ s2l "=""" ++ escape (snd a) ++ s2l """".
(** ElementTree._serialize_xml; the texts and tails are blanks, which _escape_cdata keeps *)
Fixpoint serialize (e : xml) : str :=
  let 'Elem tag at_ tx tl ks := e in
  s2l "<" ++ tag ++ concat (map attr_text at_)
    ++ match tx, ks with
       | None, [] => s2l " />"
       | _, _ => s2l ">" ++ match tx with Some t => t | None => [] end ++ concat (map serialize ks) ++ s2l "</" ++ tag ++ s2l ">"
       end
    ++ match tl with Some t => t | None => [] end.

Section Xml.
  (** str of a float *)
  Variable fs : Q -> str.
  (** 201-220 Zaid.to_xml *)
  Definition zaid_xml (E : matenv) (z : zaid) : res xml :=
    do f <- fullname E z;
    let kind := if negb (Qle_bool 0 (z_frac z)) then s2l "wo" else s2l "ao" in
    Ok (element (s2l "nuclide") [(s2l "name", no_dash f); (kind, fs (Qabs (z_frac z)))] []).
  (** 531-557 SubMaterial.to_xml; the elements are never None *)
  Definition sub_xml (E : matenv) (s : submat) : res (list xml) := mapM (zaid_xml E) (concat (s_elems s)).
  (** 1018-1039 Material.to_xml, with the density of the material; submaterials are a list *)
  Definition material_xml (E : matenv) (md : material * option Q) : res xml :=
    let '(m, d) := md in
    let id := filter is_digit (mt_name m) in
    do d <- of_opt TypeError d;
    do subs <- mapM (sub_xml E) (mt_subs m);
    let units := if negb (Qle_bool 0 d) then s2l "g/cc" else s2l "atom/b-cm" in
    Ok (element (s2l "material") [(s2l "id", id); (s2l "name", mt_name m)]
          (element (s2l "density") [(s2l "value", fs (Qabs d)); (s2l "units", units)] [] :: concat subs)).
  (** 1554-1577 MatCardsList.to_xml *)
  Definition to_xml (E : matenv) (ms : list (material * option Q)) : res str :=
    do es <- mapM (material_xml E) ms;
    Ok (serialize (indent 0 (element (s2l "materials") [] es))).
End Xml.
