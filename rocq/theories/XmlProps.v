(** Property C110: the XML (OpenMC) text of a list of materials. *)
From Coq Require Import Lia ZArith Qabs Lqa.
From Verif Require Import PyBase PyStr PyText LibModel LibSpec D1SModel MatModel MatInfoModel MatInfoSpec MatInfoProofs LibProps MatProps MatInfoProps XmlModel XmlSpec XmlProofs XmlProofs2.
Open Scope nat_scope.

(** The text is a document with one entry per material, in order: its id, name and density, and one nuclide for every zaid of its
    elements, in order. *)
Theorem C110_document fs E ms t : wf_table (l_iso (m_lib E)) -> to_xml fs E ms = Ok t ->
  exists xs, Forall2 (MaterialOf fs E) ms xs /\ Document xs t.
Proof. intros W H. exact (to_xml_ok fs E W ms t H). Qed.
Print Assumptions C110_document.
(** The document says nothing else: its text determines the materials it lists. *)
Theorem C110_text_determines_content ms ms' t : Document ms t -> Document ms' t -> ms = ms'.
Proof. apply document_inj. Qed.
Print Assumptions C110_text_determines_content.
(** It is made whenever every material has a density and every zaid is known. *)
Theorem C110_exists fs E ms : (forall m d, In (m, d) ms -> d <> None /\ forall s zs z, In s (mt_subs m) -> In zs (s_elems s) -> In z zs -> known E z) ->
  exists t, to_xml fs E ms = Ok t.
Proof. apply to_xml_total. Qed.
Print Assumptions C110_exists.
(** A single material without a density (all those read from an input or made from zaids: neither sets one) makes it fail. *)
Theorem C110_materials_without_density_refuted fs E m ms : to_xml fs E ((m, None) :: ms) = Err TypeError
  /\ (wf_table (l_iso (m_lib E)) -> forall ms', In (m, None) ms' -> is_ok (to_xml fs E ms') = false).
Proof.
  split; [apply to_xml_none|]. intros W ms' H. destruct (to_xml fs E ms') as [t|] eqn:X; [|reflexivity]. exfalso. exact (to_xml_some fs E W ms' t X m None H eq_refl).
Qed.
Print Assumptions C110_materials_without_density_refuted.

(** ** a material of water and steel of 7.9 g/cc *)
Definition digits_of (q : Q) : str := str_of_Z (Qnum q) ++ s2l "/" ++ str_of_Z (Zpos (Qden q)).
Example C110_witness : wf_table (l_iso (m_lib denv)) /\ exists t, to_xml digits_of denv [(water_steel, Some (-79 # 10)%Q)] = Ok t /\ lines_of t = map (fun s => s2l s ++ [nl])
  ["<materials>"; "  <material id=""1"" name=""m1"">"; "    <density value=""79/10"" units=""g/cc"" />"; "    <nuclide name=""H1"" ao=""2/1"" />"; "    <nuclide name=""O16"" ao=""1/1"" />";
   "    <nuclide name=""Fe56"" ao=""1/1"" />"; "    <nuclide name=""Fe54"" ao=""1/2"" />"; "    <nuclide name=""H1"" ao=""1/2"" />"; "  </material>"; "</materials>"]%string.
Proof. split; [exact C21_rows_are_well_formed|]. eexists. split; [vm_compute; reflexivity|vm_compute; reflexivity]. Qed.
Example C110_witness_known z : In z (all_zaids water_steel) -> known denv z.
Proof. exact (proj1 (proj2 (proj2 C104_witness)) z). Qed.
Example C110_witness_escape : Means (s2l "a&amp;b&quot;") (s2l "a&b""").
Proof. exact (escape_means (s2l "a&b""")). Qed.
