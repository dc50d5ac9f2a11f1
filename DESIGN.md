# Design of the model

## What is here

* `properties.jsonl`: the properties, in terms of the API.
* `rocq/theories`: the model. For each part of the code there are
  * `XModel.v`: the code, function by function; every definition cites the lines of `/repo` it models and says where it simplifies; no proofs;
  * `XSpec.v`: the vocabulary of the statements, written without the helpers of the model (except the data types);
  * `XProofs*.v`: lemmas;
  * `XProps*.v`: only the theorems `Cnn_...`, each followed by `Print Assumptions`, and `Example`s showing that concrete, non-trivial cases meet the hypotheses.
* `MANIFEST.json`: the theorems of each property.
* `seeded/LOG.jsonl`: the wrong programs tried (step 5 of the task), which theorems failed, and which theorems were added or tightened where none did.

## How properties are stated

Reading the code showed many places where it does not do what its documentation says. A property of this kind is stated exactly: what holds, for which inputs, and the exceptions by name. An exception is a theorem with the suffix `_refuted`: it proves that the unconditional statement fails, by a concrete input on which the model of the code misbehaves (an error, a wrong number, a hang). `proved` in the manifest means: the statement as written in `properties.jsonl`, exceptions included, is proved. The exceptions are therefore findings about F4Enix, not gaps of the proofs; what is missing from a model is listed below and in the notes of the table.

## Conventions of the models

* Python values: exceptions are values of `res A := Ok a | Err e` (`PyBase.v`) with the exception class; functions that change objects before raising return the changed state together with the exception. Loops that may not terminate have fuel, and divergence is `forall fuel, ... = None/Running`.
* dictionaries: association lists in insertion order (`dget`, `dset` of `PyBase.v`).
* text: lists of ASCII characters (`PyStr.v`, `PyText.v`); Python's `split`, `strip`, `int`, `float`, `splitlines`, slices and format specifications are modelled and their laws proved (`PyStrLemmas.v`, `PyFmtLemmas.v`, `PySci*.v`). Text outside ASCII is not modelled.
* floats: exact rationals (`Q`), or the reals of the standard library (`R`) where powers, roots or angles matter. Rounding of float arithmetic is not modelled; rounding in printed numbers (`%.4E`, `#.5g`, ...) is, exactly.
* numpy arrays: nested lists or functions on indices; views and in-place changes are modelled by the new value where nothing else can see the array, and by a heap where something can (cards of an input: `InpModel.v`).
* numjuggler, pandas, pyvista, vtk, python-docx, endf, h5py, openpyxl are not in /repo. What the code needs of them is a parameter of the model or an assumption named below; nothing is an axiom.

## Trusted base

* Coq 8.16.1: its kernel (including `vm_compute`, used for closed computations such as the checks of the shipped isotope table and the witnesses).
* the models: that the Gallina definitions say what the cited Python lines do.
* axioms: none of ours. `Print Assumptions` of each theorem of the manifest prints `Closed under the global context`, except for the theorems about reals below, which use axioms of the standard library's real numbers:

  * `C06_soften_pointwise`: sig_forall_dec, sig_not_dec, classic, functional_extensionality_dep
  * `C06_soften_composes`: sig_forall_dec, sig_not_dec, classic, functional_extensionality_dep
  * `C06_soften_powers_ratios`: sig_forall_dec, sig_not_dec, classic, functional_extensionality_dep
  * `C07_documented_formula_iff`: sig_forall_dec, sig_not_dec, classic, functional_extensionality_dep
  * `C43_error_is_the_relative_deviation`: sig_forall_dec, sig_not_dec, functional_extensionality_dep
  * `C43_smallest_cell_is_worst`: sig_forall_dec, sig_not_dec, functional_extensionality_dep
  * `C44_region_is_the_wedge`: sig_forall_dec, sig_not_dec, functional_extensionality_dep
  * `C44_more_than_half_a_turn_refuted`: sig_forall_dec, sig_not_dec, functional_extensionality_dep
  * `C109_cartesian`: sig_forall_dec, sig_not_dec, classic, functional_extensionality_dep
  * `C109_displaced_twice_refuted`: sig_forall_dec, sig_not_dec, classic, functional_extensionality_dep
  * `C109_cylinder`: sig_forall_dec, sig_not_dec, classic, functional_extensionality_dep
  * `C109_upright_cylinder`: sig_forall_dec, sig_not_dec, classic, functional_extensionality_dep
  * `C109_default_vectors`: sig_forall_dec, sig_not_dec, classic, functional_extensionality_dep
  * `C109_mirrored_vector_refuted`: sig_forall_dec, sig_not_dec, classic, functional_extensionality_dep
  * `C109_vector_along_z_refuted`: sig_forall_dec, sig_not_dec, classic, functional_extensionality_dep
  * `C109_downward_axis_refuted`: sig_forall_dec, sig_not_dec, classic, functional_extensionality_dep
  * `C109_directors_are_points_refuted`: sig_forall_dec, sig_not_dec, classic, functional_extensionality_dep
  * `C109_cells_show_their_values`: sig_forall_dec, sig_not_dec, functional_extensionality_dep
  * `C117_multiple`: sig_forall_dec, sig_not_dec, functional_extensionality_dep
  * `C117_cylinder_is_recognised`: sig_forall_dec, sig_not_dec, functional_extensionality_dep
  * `C117_what_cylinder_means`: sig_forall_dec, sig_not_dec, functional_extensionality_dep
  * `C117_plane`: sig_forall_dec, sig_not_dec, functional_extensionality_dep
  * `C117_plane_is_recognised_refuted`: sig_forall_dec, sig_not_dec, functional_extensionality_dep
  * `C117_description`: sig_forall_dec, sig_not_dec, functional_extensionality_dep

  (`ClassicalDedekindReals.sig_forall_dec`, `ClassicalDedekindReals.sig_not_dec`, `FunctionalExtensionality.functional_extensionality_dep`, `Classical_Prop.classic`.)
* only the standard library is used (no mathcomp, std++, Iris, Equations, Hammer, Flocq or Coquelicot), no plugins, no functors or module types.

## The parts of the model

### Mesh vectors of weight windows (C01, C02)

* files: `B2*.v`
* code: `input/ww_gvr/utils.py`
* model: one axis at a time, lists of rationals; `remove(1)` removes the first element equal to 1; `np.linspace` exactly
* proofs: induction on the coarse vector
* not modelled / assumed: rounding of linspace

### Weight windows in memory (C03-C09, C12, C45)

* files: `WW*.v`
* code: `input/ww_gvr/weight_window.py`, `ratios_calculation.py`, the filling of grids of `geometry.py`
* model: arrays as nested lists, generic in the numbers (record `ops`), run at rationals with explicit infinities and NaN and, for powers, at the reals; the window with its grid is a state, the methods are steps
* proofs: index arithmetic on flattened lists; invariants by induction over histories of calls; comparison with an independent specification of neighbours
* not modelled / assumed: float rounding; the positions of the grid points are in the Grid part

### Window files (C10, C11)

* files: `WWText*.v`
* code: `input/ww_gvr/ww_parser.py` 21-184, 284-376
* model: lines of characters, the format specifications `>#9.5g`, `>#13.5g`, `>#13.4E` exactly; loops with fuel
* proofs: lemmas on split/format; round trip by induction on packs of six; divergence for every fuel
* not modelled / assumed: lines are only used through `split`

### The f4enix_ww session (C13)

* files: `Cli*.v`
* code: `input/ww_gvr/cli.py`
* model: a session is a function of the lines typed; windows and file operations are parameters
* proofs: induction on the typed lines
* not modelled / assumed: printing and clearing the screen

### Irradiation and reaction files (C14-C18, C46)

* files: `D1S*.v`
* code: `input/d1suned.py`
* model: text in, text out, character by character; objects as records, operations as steps with their exceptions
* proofs: round trips from lemmas on justified columns; invariants over histories; witnesses for over-wide fields
* not modelled / assumed: the number text written by modify_time_val is a parameter

### Library manager (C19-C21, C47)

* files: `Lib*.v`
* code: `input/libmanager.py`, `resources/Isotopes.txt` (embedded: `IsoData.v`)
* model: tables as lists, zaids as text; the shipped isotope table is embedded
* proofs: case analysis with complete characterisation; `vm_compute` over the shipped table lifted by `forallb_forall`
* not modelled / assumed: libraries are the lists of zaids of their xsdir

### Materials (C22-C27, C48)

* files: `Mat*.v`
* code: `input/materials.py`
* model: zaids, elements, submaterials, materials and lists as records with exact fractions; the functions that change materials return the changed ones also when they raise
* proofs: algebra on sums of rationals; invariants over histories of the material list
* not modelled / assumed: the in-line information is in MatInfo, the text in MatText

### Material cards as text (C94, C95)

* files: `MatText*.v`
* code: `input/materials.py`, from_text and to_text
* model: character level reader and writer, with the scientific format of the fractions
* proofs: lemmas on words, printing and parsing; idempotence of write-read-write
* not modelled / assumed: the density line of OpenMC, nan/inf, underscores in numbers

### Materials of an input (C96)

* files: `MatIn*.v`
* code: `input/materials.py` 1469-1536
* model: cards are lists of lines, as given by numjuggler
* proofs: induction on the cards
* not modelled / assumed: numjuggler's splitting into cards

### Tables and in-line information of materials (C103-C105)

* files: `MatInfo*.v`
* code: `input/materials.py` 287-328, 668-742, 873-923, 1041-1112, 1272-1360, 1638-1671
* model: grouping as in pandas (sorted keys), a division by zero is a missing number
* proofs: permutation and sum lemmas; the tables are compared with sums over the zaids picked by a predicate
* not modelled / assumed: the printed form of the numbers; from_zaids' density

### Cards and inputs (C28-C32, C36)

* files: `Inp*.v`
* code: `input/MCNPinput.py`: CardsDict, merge, renumber, extraction, _to_dict, check_range
* model: a heap of cards (objects are shared), dictionaries by key; a card is its values, its template with holes and its hidden texts, as numjuggler keeps them
* proofs: invariants, closure of references by induction with fuel
* not modelled / assumed: numjuggler: assumptions listed in `InpModel.v`

### Geometry edits and replacement of materials (C33, C34)

* files: `InpGeom*.v`
* code: `input/MCNPinput.py` 1242-1586
* model: words of the cell card; a small semantics of cell geometry (points in regions) gives the meaning
* proofs: the edited text is read back to the intended region for every region
* not modelled / assumed: card(wrap=True) keeps the words of a card

### Writing inputs (C97)

* files: `InpWrite*.v`
* code: `input/MCNPinput.py` 359-382, 563-573, 817-878
* model: the text of a card is a parameter
* proofs: lists of lines
* not modelled / assumed: numjuggler's text of a card

### Summary of the tallies (C98)

* files: `TalSum*.v`
* code: `input/MCNPinput.py` 1147-1240
* model: text level on the data cards
* proofs: induction on cards and rows
* not modelled / assumed: repr of a text is a parameter; the order of rows with equal numbers

### Tallies listed over the life of an input (C112)

* files: `TalHist*.v`
* code: `input/MCNPinput.py` 315-357, 384-437, 1614-1723, 1855-1863
* model: a life is a tree of readings, additions and merges; the data cards of the Data part
* proofs: invariant over lives
* not modelled / assumed: numjuggler's dtype and name of a card are fields of the card read

### Translating an input (C113, C114)

* files: `Tran*.v`
* code: `input/MCNPinput.py` 497-550, `input/materials.py` 559-666, 1578-1636
* model: on the Lib, Mat and MatInfo parts; arguments are texts or dictionaries of any shape
* proofs: equality with the translation of the Mat part; case analysis of the conversion for the second translation
* not modelled / assumed: json.loads is a parameter

### Densities, tables, look-ups (C99-C101)

* files: `Look*.v`
* code: `input/MCNPinput.py` 616-727, 1075-1145
* model: on the heap of the Inp part
* proofs: induction; extremal values of lists
* not modelled / assumed: get_d/set_d of numjuggler; conversions of densities are parameters

### Taking cells out of cells (C102)

* files: `Hash*.v`
* code: `input/MCNPinput.py` 1442-1488
* model: repeated edits of the InpGeom part
* proofs: induction over the dictionary and its lists
* not modelled / assumed: ordinary card layout

### Data cards (C35, C49-C51)

* files: `Data*.v`
* code: `input/MCNPinput.py` 1614-1723, 2063-2174
* model: cards as lists of lines
* proofs: character level lemmas on the added cards
* not modelled / assumed: numjuggler's wrap is a parameter that keeps words

### Work flow of a D1S calculation (C129, C130)

* files: `Flow*.v`
* code: `input/MCNPinput.py` 1777-2082
* model: composition of the Paths, Mat, Lib and Data models
* proofs: the file's parents are exactly the zaids with a scheduled path (C37), hence the targets of the translation; every generated field fits its column, so the text round trip of C15 applies; cases of the conversion (C19)
* not modelled / assumed: fix_natural_zaid only in a refutation

### D1S inputs (C37, C52)

* files: `Paths*.v`
* code: `input/MCNPinput.py` 1777-2061
* model: on the Mat, Lib and D1S parts
* proofs: sorting and de-duplication lemmas
* not modelled / assumed: -

### RSSA files (C38-C40)

* files: `Rssa*.v`
* code: `output/rssa.py`
* model: bytes; UTF-8 and IEEE binary64 are modelled
* proofs: round trip from bytes; partition; sums over bins
* not modelled / assumed: np.angle and the norm are parameters; drawing

### Mesh tallies (C41, C53-C55)

* files: `Mesh*.v`, `MeshCuv*.v`
* code: `output/meshtal/aux_meshtal_functions.py`, `mesh_parser.py`
* model: files as lists of lines, positions as suffixes
* proofs: induction over the loops of the reader; every layout against one specification of the mesh
* not modelled / assumed: the transformation is a parameter here, modelled in the Trsf part

### Placement of meshes and CDGS files (C106, C107)

* files: `Trsf*.v`
* code: `output/meshtal/aux_meshtal_functions.py` 549-633, 678-701, 766-775, 867-900, `mesh_parser.py` 166-230
* model: character level for the placement line; files as in the Mesh part
* proofs: lemmas on index and slices; the reader against a specification of the file
* not modelled / assumed: nan and inf

### Weight windows from file to file (C115)

* files: `WWFile*.v`
* code: `input/ww_gvr/weight_window.py` 33-73, 111-168, 401-454, `geometry.py` 25-57, 147-211
* model: composes the B2, WW and WWText parts; a window is its geometry and its values
* proofs: the specifications of the parts composed; five-digit rounding is idempotent; invariant over sequences of calls
* not modelled / assumed: the points of the grid are in the Grid part

### Bytes that are not UTF-8 (C120)

* files: `Uni*.v`
* code: `input/auxiliary.py` 28, 57-93
* model: a file as its bytes; the UTF-8 decoder with surrogateescape, universal newlines, lines
* proofs: a file decodes in exactly one way; the surrogates of each line are the bad bytes of the file, by strong induction
* not modelled / assumed: locales whose encoding is not UTF-8

### Cross section of a material (C121)

* files: `XsMat*.v`
* code: `input/ace.py` 333-394
* model: the switches of the Mat part, then the sum of the Ace part
* proofs: the round trip of the fractions and the sum over the nuclides
* not modelled / assumed: endf package, interpolation, log-spaced points

### Atom densities of a list of materials (C48)

* files: `MatDens*.v`
* code: `input/materials.py` 1362-1387, 1764-1782
* model: the materials after each step, also when one raises
* proofs: induction over the list; the converted material is a fixed point
* not modelled / assumed: -

### Comments of a card (C122)

* files: `Comm*.v`
* code: `input/auxiliary.py` 31-54, `constants.py` 41, 44
* model: the two patterns as functions on a line
* proofs: case analysis of a line, induction over the lines
* not modelled / assumed: -

### Attributes and description of a mesh (C118)

* files: `FmInfo*.v`
* code: `output/meshtal/fmesh.py` 277-388
* model: Python values by kind; a history is a list of assignments, refused ones leave the mesh as it is
* proofs: induction over the history
* not modelled / assumed: -

### Cross sections of a nuclide (C119)

* files: `NucXs*.v`
* code: `input/ace.py` 29-47, 79-263, 514-522
* model: nuclide as reactions, products and tables; callables as functions to a result
* proofs: a combination of n functions and n-1 operations by induction; the nearest temperature from argmin and round
* not modelled / assumed: endf package; np.log of the decrement; truth value of yields

### Equality of irradiations and mesh vectors (C116)

* files: `Eq*.v`
* code: `input/d1suned.py` 415-458, `input/ww_gvr/models.py` 31-47
* model: irradiations are the records of the D1S part, numbers are rationals
* proofs: characterisation of the comparison as same number pointwise; the printed time is short enough for its column
* not modelled / assumed: inf, nan and the precision of doubles

### The dictionary of cards (C128)

* files: `Cards*.v`
* code: `input/MCNPinput.py` CardsDict
* model: keys and values of any type; the methods of dict that the class does not override (del, pop, popitem, clear, setdefault, |=)
* proofs: induction over the items and over the operations of a script
* not modelled / assumed: 

### Histories of an input (C126, C127)

* files: `Life*.v`
* code: `input/MCNPinput.py` (renumber, merge, CardsDict, replace_material, scale_densities)
* model: no new model: steps are successful calls of the Inp and Look models; a card that the user creates is a step too
* proofs: invariant of the histories; runs of renumberings by induction with zero as the absorbing case
* not modelled / assumed: as for the Inp part

### A material over its life (C131)

* files: `MatLife*.v`
* code: `input/materials.py` 744-762, 1041-1270
* model: no new model: the steps are the calls of the Mat models
* proofs: each step multiplies the masses of all elements by one positive factor; induction on the calls
* not modelled / assumed: precision of doubles

### VTK files of weight windows (C125)

* files: `Vtk*.v`
* code: `input/ww_gvr/weight_window.py` 456-474, `input/ww_gvr/geometry.py` 256-268
* model: paths as folder and name; pathlib stem and suffix
* proofs: position of the last dot
* not modelled / assumed: pyvista

### Deleting fills (C124)

* files: `Fill*.v`
* code: `input/MCNPinput.py` 1762-1773
* model: heap and dictionaries of the Inp part; the state at an exception is kept
* proofs: induction over the items, with the new cards after the old ones in the heap
* not modelled / assumed: numjuggler remove_fill and parser

### From a meshtal file to its grids (C135)

* files: `MeshAll*.v`
* code: `output/meshtal/meshtal.py` 48-112, `fmesh.py` 463-583
* model: no new model: the mesh readers, grids and exports of the Mesh, Trsf, Gvr and Fmesh parts
* proofs: the values of the mesh read are those of the text, so the arrays of C57 show them
* not modelled / assumed: as for C53 and C57

### From a mctal file to its tables (C134)

* files: `MctalAll*.v`
* code: `output/mctal.py` 670-1380
* model: no new model: reader and tables of the Mctal part
* proofs: the values of a tally that was read are those at their places in the text, so the rows of C63 show them
* not modelled / assumed: as for C62 and C63

### From a tally to a weight-window file and back (C133)

* files: `GvrFile*.v`
* code: `input/ww_gvr/weight_window.py` 53-107, 401-427
* model: the two records for Geometry are identified; nothing else is new
* proofs: a window made from a tally has unit fine intervals and one energy, so it is one that C115 can save
* not modelled / assumed: as for C108 and C115

### From RSSA bytes to maps of current (C132)

* files: `RssaAll*.v`
* code: `output/rssa.py` 95-287, 419-537
* model: no new model: reader, masks and plots of the Rssa part
* proofs: the selections are complementary; the sums of C40 are composed with the round trip of C38
* not modelled / assumed: doubles

### Files and colours of RSSA plots (C123)

* files: `RssaPlot*.v`
* code: `output/rssa.py` 177-191, 290-302
* model: names as texts, decades as whole numbers
* proofs: the texts of the settings determine them; bounds of the decimal logarithm
* not modelled / assumed: rounding of np.log10; the pictures

### Type and description of an RSSA file (C117)

* files: `RssaInfo*.v`
* code: `output/rssa.py` 85, 302-327, 395-415
* model: tracks and headers are those of the Rssa part; radii are real numbers
* proofs: the mean minimises the sum of squares, so the deviation is bounded by that from any radius
* not modelled / assumed: infinite and NaN coordinates; the text of a radius

### Weight windows from mesh tallies (C108)

* files: `Gvr*.v`
* code: `input/ww_gvr/weight_window.py` create_gvr_from_meshtally_file, `ww_parser.py` read_meshtally_file and its helpers
* model: the mesh reader of the Mesh and Trsf parts, then the window of the WW part
* proofs: composition of the specifications of both parts
* not modelled / assumed: nan and inf

### Grids of weight windows (C109)

* files: `Grid*.v`
* code: `input/ww_gvr/meshgrids.py`, `geometry.py` 59-69, 112-144
* model: real coordinates; rotations by the formula of Rodrigues, as pyvista documents them
* proofs: algebra of rotations over the reals of the standard library (its axioms are listed by Print Assumptions)
* not modelled / assumed: single precision; the zero axis or vector (nan)

### XML of materials (C110)

* files: `Xml*.v`
* code: `input/materials.py` 45-70, 201-220, 531-557, 1018-1039, 1554-1577
* model: XML trees, their indentation and their text
* proofs: induction over trees; the document as lines, from which its content is read back
* not modelled / assumed: str of a float is a parameter

### Meshes and their grids (C56-C61)

* files: `Fmesh*.v`
* code: `output/meshtal/fmesh.py`, `meshtal.py`
* model: grids as points and named arrays; files as text
* proofs: index arithmetic; rigid motions as matrices
* not modelled / assumed: single precision of vtk; sin and cos are parameters

### Sampling error of CUV (C43)

* files: `CuvErr*.v`
* code: `output/cuv_sampling_error.py`
* model: lines; the root is a parameter, and the real square root in two theorems
* proofs: induction on the voxels
* not modelled / assumed: -

### Decay pathway library (C42)

* files: `PathLib*.v`
* code: `output/decay_pathways.py`
* model: tables as rows
* proofs: filters and maxima of groups
* not modelled / assumed: pandas leaves the order of some rows open

### E-Lite sectors (C44)

* files: `Elite*.v`
* code: `input/elite.py`, `constants.py` 137-170
* model: planes and angles; sin, cos, norm parameters, reals in two theorems
* proofs: half planes and wedges
* not modelled / assumed: the excel file is its rows

### E-Lite over a history of calls (C111)

* files: `EliteRun*.v`
* code: `input/elite.py` 44-202
* model: the heap of the Inp part and the table kept by the object; fields of surface cards through two parameters
* proofs: the call as a function of the cards of the input, frame conditions, induction on the history
* not modelled / assumed: copies made by a call that raises are dropped

### mctal files (C62-C66)

* files: `Mctal*.v`
* code: `output/mctal.py`
* model: lines; tallies as records; the tables as rows
* proofs: the reader against a printer of tallies, for all tallies
* not modelled / assumed: radiography tallies, infinities, perturbations

### meshinfo files (C67-C69)

* files: `Mi*.v`
* code: `output/meshinfo.py`
* model: lines; data frames as rows
* proofs: reader against a printer; queries as filters
* not modelled / assumed: JSON and HDF5 give back what was stored; NaN

### MCNP output files (C70-C77)

* files: `Out*.v`
* code: `output/MCNPoutput.py`
* model: lines; regular expressions as searches
* proofs: reader against a specification of the lines
* not modelled / assumed: pandas.read_fwf, excel, csv, vtk; the particle of get_NPS is plain text

### FISPACT pathways (C78, C79)

* files: `Fisp*.v`
* code: `output/fispact_legacy_out.py`
* model: lines
* proofs: reader against a printer of pathways
* not modelled / assumed: order of rows with equal keys

### Small predicates used by specifications (C32, C33, C37, C44, C46, C78, C80, C83, C98)

* files: `Help*.v`
* code: as the models they belong to
* model: -
* proofs: each predicate is characterised by the codes of the characters or by the form of the line
* not modelled / assumed: -

### eeout files (C80-C82)

* files: `Eeout*.v`
* code: `output/eeout.py`
* model: lines; the grid as points, cells and arrays
* proofs: reader against a specification
* not modelled / assumed: attachment of arrays to points or cells

### xsdir files and library loading (C83-C86)

* files: `Xs*.v`
* code: `input/xsdirpyne.py`, `libmanager.py` 100-300
* model: lines; `str` of floats and `.11e` parameters
* proofs: reader against a printer
* not modelled / assumed: nan and inf

### ACE files and macroscopic cross sections (C87, C88)

* files: `Ace*.v`
* code: `input/ace.py`
* model: cross sections are functions, grids parameters
* proofs: sums
* not modelled / assumed: endf package, logspace, interpolation

### Plots and atlases (C89-C93)

* files: `Plot*.v`
* code: `output/plotter.py`
* model: cuts and drawing are parameters
* proofs: lists of slices, names and pictures
* not modelled / assumed: pyvista, matplotlib, python-docx

## Code that is not modelled

* `material_library.py` and `egroups.py` (data), `constants.py` other than what the models quote.
* the endf package (`input/ace.py` reads nuclides with it; parameters of C88, C119, C121).
* `__repr__`, `__str__`, logging, printing, `plot()` methods and other drawing.

## The properties

For each: the files with its theorems, how it is proved (the part above), and remarks. `R`: uses the axioms of the reals.

| id | property | status | theorems | remarks |
|---|---|---|---|---|
| C01 | Block-2 mesh vectors survive compose/decompose | proved | 4 in `B2Props.v` |  |
| C02 | The fine mesh refines the coarse mesh | proved | 1 in `B2Props.v` |  |
| C03 | Weight-window values keep their voxel through load and save | proved | 2 in `WWProps.v` | The exceptions named in the statement are proved as the _refuted theorems. Proved for pairwise different energies; with duplicate energies a whole bin is lost (refuted witness, real behaviour of the dictionary keyed by energy, weight_window.py 131-132). |
| C04 | Ratios are the maximum neighbour ratio | proved | 2 in `WWProps.v` |  |
| C05 | Mitigation bounds every ratio | proved | 1 in `WWProps.v` |  |
| C06 | Multiply and soften act pointwise and compose | proved | 8 in `WWProps.v`, `WWProps2.v` (R) |  |
| C07 | add_particle gives normalised, softened photon values | proved | 3 in `WWProps.v` (R) | The exceptions named in the statement are proved as the _refuted theorems. Neutrons unchanged / second call rejected proved; the documented photon value is refuted: the code computes value*norm**soft (weight_window.py 350), equal to the documented (value*norm)**soft only for soft=1 or value=1 (C07_documented_formula_iff). |
| C08 | remove_particle undoes add_particle | proved | 4 in `WWProps.v` | The exceptions named in the statement are proved as the _refuted theorems. Values, ratios and saved file restored (proved); the exported grid keeps the removed particle's arrays (refuted). |
| C09 | A GVR is the flux scaled to the documented maximum | proved | 1 in `WWProps.v` |  |
| C10 | A saved weight-window file loads back | proved | 3 in `WWTextProps.v` | Round trip, 5-digit accuracy and byte-identical second save proved for all saveable windows (mesh counts < 100000). The limits named in the property are exhibited by the _refuted witnesses (count 100001 read back as 100000; energies equal to 5 digits merge). |
| C11 | When loading a weight-window file terminates | proved | 2 in `WWTextProps.v` | The exceptions named in the statement are proved as the _refuted theorems. Refuted: every saved file cut at any line after the header makes the loader loop forever (readline at EOF returns '' without end). Proved instead: on every text file the loader finishes within one iteration per line plus one per loop, or never. |
| C12 | The cylindrical grid shows each voxel's value | proved | 2 in `WWProps.v` |  |
| C13 | CLI: commands act on the window the user names | proved | 14 in `CliProps.v`, `CliProps2.v` | The exceptions named in the statement are proved as the _refuted theorems. Session model with abstract window operations; typed commands characterised. Refutations: 'empty' crashes, typed GVR ratio is not used, dotted names, re-opening. |
| C14 | Irradiation file write/read round trip | proved | 3 in `D1SProps.v` | Round trip proved for all files whose fields fit their columns; the limits named in the property are exhibited by the _refuted witnesses. |
| C15 | Reaction file write/read round trip | proved | 2 in `D1SProps.v` | Round trip proved under the width guard named in the property; over-wide field exhibited by a witness. |
| C16 | Irradiation schedules stay rectangular | proved | 6 in `D1SProps.v` |  |
| C17 | Daughter selection is exact | proved | 3 in `D1SProps.v` | Selection and lookup proved; the report is exact for distinct daughters and wrong otherwise (witness), as the property says. |
| C18 | Reaction library change touches only what was asked | proved | 4 in `D1SProps.v` | The exceptions named in the statement are proved as the _refuted theorems. Proved except dictionary + library manager, where the code tests the raw argument (d1suned.py 652) and never translates (refuted for every such call). |
| C19 | Zaid translation conserves the nuclide amount | proved | 13 in `LibProps.v` | The exceptions named in the statement are proved as the _refuted theorems. Full characterisation of convertZaid (five documented answers, justified errors, amount, element and library). Refuted: a natural element missing from library and table is translated to nothing; a default library that is not loaded raises KeyError. |
| C20 | Zaid number and name conversions are inverse | proved | 5 in `LibProps.v` | The exceptions named in the statement are proved as the _refuted theorems. Round trips proved for any table in which symbol and number determine each other, and for every element of the shipped table but Z=102, whose symbol is Nb in Isotopes.txt (refutation). |
| C21 | Natural abundances in the shipped isotope table are consistent | proved | 6 in `LibProps.v` | The exceptions named in the statement are proved as the _refuted theorems. Embedded table. Refuted as stated for argon (0.99985); proved with tolerance 1.5e-4. Symbol uniqueness fails for Z=41/102. |
| C22 | Material translation conserves total mass/atom fraction | proved | 11 in `MatProps.v` | The exceptions named in the statement are proved as the _refuted theorems. Mass totals exact, atom totals up to abundance sums (0.015 % with the shipped table), sign, element, library and errors proved for all submaterials whose zaids are translatable. Refuted: an untranslatable zaid disappears silently; a failing material translation is not atomic. |
| C23 | Collapsing zaids conserves every nuclide's fraction | proved | 3 in `MatProps.v` |  |
| C24 | Atom/mass fraction switching | proved | 8 in `MatProps2.v` | The exceptions named in the statement are proved as the _refuted theorems. Physical proportions, signs, normalisation and round trips proved. Refuted: an already switched card is not normalised; the list returned by an in-place switch holds empty submaterials. |
| C25 | Density conversions are inverse and do not alter the material | proved | 5 in `MatProps2.v` | The exceptions named in the statement are proved as the _refuted theorems. Inverse and physical formula proved for tabulated zaids. Refuted: both queries rewrite the material's fractions; natural elements raise KeyError. |
| C26 | Mixed materials have the requested proportions | proved | 4 in `MatProps2.v` | The exceptions named in the statement are proved as the _refuted theorems. Percentages, proportions and order proved; refuted: the source list is translated in place. |
| C27 | The material list and its dictionary agree | proved | 4 in `MatProps2.v` | The exceptions named in the statement are proved as the _refuted theorems. Look-up and operations proved for every history; name uniqueness only for polite callers (refuted otherwise: append and extend accept duplicates). |
| C28 | Merging inputs is the union or KeyError | proved | 3 in `InpProps.v` | The exceptions named in the statement are proved as the _refuted theorems. Cards are shared objects on a heap; numjuggler's parsed cards are the assumption (InpModel.v header). |
| C29 | Renumbering shifts ids and every reference consistently | proved | 6 in `InpProps.v` | The exceptions named in the statement are proved as the _refuted theorems. Numbers and types of a card are those found by numjuggler's parser. |
| C30 | Extraction yields a self-contained model | proved | 8 in `InpProps.v` | The exceptions named in the statement are proved as the _refuted theorems. The divergence is proved for every amount of fuel; termination for acyclic references. |
| C31 | Card dictionaries keep key and card number equal | proved | 3 in `InpProps.v` | The exceptions named in the statement are proved as the _refuted theorems. Histories of any length; the printed number is the first value of the card. |
| C32 | Reading cards loses no card | proved | 7 in `HelpProps.v`, `InpProps.v` | The exceptions named in the statement are proved as the _refuted theorems. The cards and their kinds are those of numjuggler's parser. |
| C33 | Adding a surface to a cell cuts exactly that cell | proved | 8 in `HelpProps.v`, `InpGeomProps.v` | The exceptions named in the statement are proved as the _refuted theorems. Regions are given a meaning (points and half-spaces) independent of the text edits; card(wrap=True) is taken to keep the words of a card. |
| C34 | Material replacement and void filling | proved | 6 in `InpGeomProps.v` | The exceptions named in the statement are proved as the _refuted theorems. Densities are exact numbers; the text of the card is that of numjuggler's template. |
| C35 | Added tallies contain what was asked for | proved | 10 in `DataProps.v` | The exceptions named in the statement are proved as the _refuted theorems. Tally, energy, divisor, comment and multiplier cards proved for all id lists and one or two particles, with card(wrap=True) assumed to preserve the words of the card. Refuted: a third particle is dropped; no cells gives 'SD4 1 -1R'; cards not requested keep stale content. |
| C36 | check_range reports precisely the overlap | proved | 2 in `InpProps.v` | Ids are the keys of the dictionaries. |
| C37 | D1S reaction file covers all available paths | proved | 6 in `FlowProps.v`, `HelpProps.v`, `PathsProps.v`, `PathsProps2.v` | Exact set, order and comments of the reaction file, for any activation data. |
| C38 | RSSA tracks are read exactly | proved | 14 in `RssaProps.v`, `RssaProps2.v` | The exceptions named in the statement are proved as the _refuted theorems. Round trip proved for every D1S-UNED file layout (bytes to header, surfaces and 64-bit words; the IEEE value of a word), truncation and malformed header records rejected. Refuted: announced number of tracks and the record lengths around tracks are not checked; a last-dump number with a non-UTF-8 byte (128-255) makes the file unreadable. |
| C39 | Neutron and photon tracks partition the RSSA | proved | 5 in `RssaProps.v`, `RssaProps2.v` | The exceptions named in the statement are proved as the _refuted theorems. Proved for tracks whose packed word is a number; a NaN word is in neither mask (refuted). |
| C40 | Binning conserves weight | proved | 5 in `RssaProps.v`, `RssaProps2.v` | The exceptions named in the statement are proved as the _refuted theorems. Exact rationals; np.angle and the norm are parameters. Every cell is the sum of its tracks, totals conserved. Refuted: x_range without z_range always raises; tracks all at the same z cannot be plotted. |
| C41 | Meshtal layouts agree | proved | 3 in `MeshProps.v` | The exceptions named in the statement are proved as the _refuted theorems. All four layouts proved equal for every mesh; refuted for the column layout with volumes (out=cf): the volume and the product are read as value and error. |
| C42 | Decay pathway queries | proved | 8 in `PathLibProps.v` | The exceptions named in the statement are proved as the _refuted theorems. Rows, order, values, refusals, monotonicity, group maxima and text order proved for every library and query. Numeric order only when the zaid numbers have equal length (text order otherwise, example). Refuted: the table given to the constructor is changed by it and cannot be used twice. |
| C43 | Volume sampling errors of a CUV file reach their voxels | proved | 11 in `CuvErrProps.v` (R) | The exceptions named in the statement are proved as the _refuted theorems. Reading, error formula (also over the reals) and the largest error per number proved for every file. Refuted: voxels are numbered with k fastest and grid cells with i fastest, so on every mesh with two long axes the errors land on wrong cells; a file cut inside a voxel loses that voxel silently; text after the last voxel raises ValueError. |
| C44 | Extracting sectors of E-Lite | proved | 19 in `EliteProps.v` (R) | The exceptions named in the statement are proved as the _refuted theorems. Cutting angles, openings, regions of outer cell and graveyard, source, requested cells and the treatment of every surface proved for all inputs (sine/cosine/norm are parameters; the wedge is proved over the reals). Refuted: lists with gaps are accepted; beyond half a turn part of the requested sectors goes to the graveyard; the whole turn stars boundary planes twice; filler planes with the reversed normal are moved into the sectors; rotated px/py/pz planes or cards ending in a comment abort the extraction; the displacement of a transformation is ignored. |
| C45 | The exported grid shows the current window | proved | 4 in `WWProps.v`, `WWProps2.v` | The exceptions named in the statement are proved as the _refuted theorems. Cell-by-cell statement proved for Cartesian and cylindrical grids after any history, for windows whose 2-decimal energy labels differ; refuted otherwise (labels collide below 0.005 MeV). |
| C46 | Parents of a reaction file are listed exactly once, sorted | proved | 2 in `D1SProps.v`, `HelpProps.v` |  |
| C47 | Masses and activation reactions look-ups | proved | 5 in `LibProps.v` | The exceptions named in the statement are proved as the _refuted theorems. Proved; refuted for a daughter of an unknown element, which truncates the list. |
| C48 | Atom densities from fractions and mass density | proved | 6 in `MatDensProps.v`, `MatProps2.v` | The exception is the _refuted theorem. Numbers are exact; masses are those of the table. |
| C49 | Reading the data section loses no card | proved | 4 in `DataProps.v` | The exceptions named in the statement are proved as the _refuted theorems. Proved when the normalised names are pairwise different; refuted: DF/SF/CF cards of a tally are stored under the tally's own name and replace it. |
| C50 | PIKMT and track-contribution cards | proved | 5 in `DataProps.v` | The exceptions named in the statement are proved as the _refuted theorems. Proved; refuted: a wrong `who` raises after the FU line has been added. |
| C51 | The cards of a tally are selected by its exact number | proved | 2 in `DataProps.v` |  |
| C52 | smart_translate gives every zaid its library | proved | 3 in `PathsProps.v` | The exceptions named in the statement are proved as the _refuted theorems. Proved for different libraries, with and without fix_natural_zaid; refuted for equal ones: ValueError after the reaction file and PIKMT were changed. |
| C53 | Each mesh tally is read from its own text | proved | 4 in `MeshProps.v` | The transformation line is read by a parameter here. |
| C54 | Values of a cell-under-voxel mesh | proved | 4 in `MeshCuvProps.v` | The exceptions named in the statement are proved as the _refuted theorems. Proved for every mesh whose voxels' fractions add up to 1 (no filter) or whose lone cells fill their voxel (filter). Refuted: without norm every mesh is refused; totals on cell lines are dropped and such a mesh is refused; a lone filtered cell is divided by its fraction without having been weighted. |
| C55 | CDGS sources are placed by voxel number | proved | 3 in `MeshCuvProps.v` | The exceptions named in the statement are proved as the _refuted theorems. Proved for sources listed in increasing order with non-empty voxels. Refuted: a voxel filled by nothing raises ValueError; a lone cell is not weighted; voxels out of order are dropped. |
| C56 | Selecting an energy and a time of a mesh | proved | 2 in `FmeshProps.v` |  |
| C57 | The grid of a mesh shows every value where it belongs | proved | 7 in `FmeshProps.v` | The exceptions named in the statement are proved as the _refuted theorems. Proved for every mesh; refuted: the rotation of a mesh is ignored in its grid; the last of several decay times (no total) is called tTot; a filtered mesh loses its transformation. |
| C58 | A one-dimensional mesh converted to a tally table | proved | 4 in `FmeshProps.v` | The exceptions named in the statement are proved as the _refuted theorems. Proved for meshes that vary along one axis and for the energies of a single voxel. Refuted: some other shapes raise UnboundLocalError or KeyError instead of RuntimeError; the second real half-turn slice of a cylinder is dropped. |
| C59 | Collapsing meshes keeps every field | proved | 4 in `FmeshProps.v` | Proved for pairwise different names and a first name other than 'Error - Total'. Refuted: that name loses the errors; meshes at different places (transformations) are collapsed on the points of the first. |
| C60 | Transforming meshes | proved | 9 in `FmeshProps.v` | The exceptions named in the statement are proved as the _refuted theorems. Translations, rigid motions, errors, which mesh is moved: proved. Refuted: the rotation is the inverse of MCNP's (equal for symmetric matrices only); a singular matrix raises UnboundLocalError; 'tr = 5' raises KeyError and 'TR=5' is not seen; transforming several meshes is not atomic. |
| C61 | Text exports list every point with its values | proved | 8 in `FmeshProps.v` | The exceptions named in the statement are proved as the _refuted theorems. Proved for all values and points; file names per array proved for names that differ without brackets and slashes (refuted otherwise: one file is overwritten). Refuted as a useful precision: everything below 0.0005 is printed as 0.000. |
| C62 | Reading a mctal file gives every tally as written | proved | 2 in `MctalProps.v` | The exceptions named in the statement are proved as the _refuted theorems. Proved for every text of ordinary, radiography and mesh tallies (of the picture bounds all but the last three are kept, as the statement says); not covered: infinities. Refuted: with INFO logging a NaN value makes the reader raise TypeError. |
| C63 | The table of a tally has a row for every bin | proved | 6 in `MctalProps.v` | The exceptions named in the statement are proved as the _refuted theorems. Proved for every tally read (with at least one segment besides the total). Refuted: the mesh coordinates A and C are under exchanged names; one NaN removes the whole column of values; the last two pixels of every row of a radiography tally have no row. |
| C64 | The table of totals | proved | 3 in `MctalProps.v` | The exceptions named in the statement are proved as the _refuted theorems. Proved for every list of tallies with different numbers when the axis of the total has bin names. Refuted: a tally without total after one with a total gets an empty table instead of None. |
| C65 | The error summary reports the extreme errors | proved | 3 in `MctalProps.v` | The exceptions named in the statement are proved as the _refuted theorems. Proved when no row of the table was dropped as a duplicate. Refuted otherwise: labels are used as positions, so the summary fails with IndexError or shows the value of another row. |
| C66 | Which malformed mctal files are refused | proved | 4 in `MctalProps.v` | The exceptions named in the statement are proved as the _refuted theorems. Proved: too few values, whole lines of values too many, no tallies, perturbations. Refuted: extra values on the last line and one bin too many are accepted silently, a blank line hides the tallies after it, a file cut before vals is read for ever. |
| C67 | Reading a meshinfo file gives every mesh and every mass | proved | 3 in `MiProps.v` | Proved for every such text; NaN masses are not modelled. |
| C68 | Queries on the masses of a meshinfo | proved | 3 in `MiProps.v` |  |
| C69 | Saving, loading and comparing a meshinfo | proved | 5 in `MiProps.v` | The exceptions named in the statement are the theorems C69_no_masses_refuted and C69_different_sizes_refuted. |
| C70 | Lost particles of an MCNP output | proved | 7 in `OutProps.v` | Exceptions named in the statement: C70_no_lost_particle_with_an_input_refuted, C70_cells_without_universe_refuted. The vtp file is not modelled. |
| C71 | Numbers of lost particles and histories | proved | 7 in `OutProps.v` | The particle of get_NPS is a plain text in the model (in the code a regular expression). |
| C72 | Summary of the statistical checks | proved | 4 in `OutProps.v` | The exceptions of the statement are the two refuted theorems. |
| C73 | Tables of the statistical checks | proved | 7 in `OutProps.v`, `OutProps2.v` | Exceptions: C73_no_tallies_refuted, C73_a_short_row_hides_a_failed_check_refuted. |
| C74 | Results under the description of their tally | proved | 3 in `OutProps.v` | Exceptions: the two refuted theorems. |
| C75 | Printed tables of an MCNP output | proved | 5 in `OutProps.v` | Proved for what is asked of pandas.read_fwf (rows and widths), which is not modelled itself. Exceptions: the two refuted theorems. |
| C76 | Version of the code that wrote the output | proved | 6 in `OutProps.v`, `OutProps2.v` | Versions in other files of the folder are modelled but not part of the statement. |
| C77 | Warnings and fatal errors | proved | 4 in `OutProps.v` | Exception: C77_warnings_to_leave_out_refuted. |
| C78 | Pathways of a FISPACT legacy output | proved | 8 in `FispProps.v`, `HelpProps.v` | Exceptions of the statement: C78_long_path_doubles_a_nuclide_refuted (the code's own test expects the doubled nuclide), C78_direct_path_with_other_reactions_refuted. |
| C79 | Table and text of the pathways | proved | 5 in `FispProps.v` | Exceptions: C79_the_order_is_not_that_of_isotopes_refuted, C79_no_pathways_refuted; the order of rows with equal keys is unspecified (pandas). |
| C80 | Reading an .eeout file of an unstructured mesh | proved | 5 in `EeoutProps.v`, `HelpProps.v` | Exceptions named in the statement: LastBlock in the specification, and C80_second_order_cell_type_refuted. Attachment of arrays to points or cells and the vtk format are not modelled. |
| C81 | What is refused in an .eeout file | proved | 4 in `EeoutProps.v` | pyvista's check of array lengths is assumed to raise ValueError. |
| C82 | Path of an exported unstructured mesh | proved | 2 in `EeoutProps.v` | The vtk writer is not modelled. |
| C83 | Reading an xsdir file | proved | 4 in `HelpProps.v`, `XsProps.v` | The lines left out are part of the specification (Gap, End). nan and inf are not modelled. |
| C84 | Looking up tables in an xsdir | proved | 6 in `XsProps.v` | Exception: C84_long_suffix_refuted. |
| C85 | Serpent data from an xsdir | proved | 3 in `XsProps.v`, `XsProps2.v` | str of a float and the format .11e are parameters of the theorem. |
| C86 | Libraries available for each code | proved | 7 in `XsProps.v`, `XsProps2.v` | Exceptions: the two refuted theorems; missing values (NaN) of the configuration are not modelled; the reader of a file is a parameter. |
| C87 | ACE files of a library | proved | 2 in `AceProps.v` | posix paths, folder without a final separator. |
| C88 | Cross section of a material | proved | 5 in `AceProps.v` | Exception: C88_each_nuclide_with_its_own_refuted (two nuclides with fractions 0.1 and 0.9). The cross sections of a nuclide (endf package), logspace and float rounding are parameters or not modelled; the normalisation of the fractions is switch_fraction (C24). |
| C89 | Categories of a plotted mesh | proved | 7 in `PlotProps.v` | The wrong labels are in the statement; C89_right_category_refuted shows 0.5 Gy labelled 1-10 Gy. Values are exact numbers (no NaN). |
| C90 | Images of the slices | proved | 2 in `PlotProps.v` | Drawing (pyvista) is a parameter; posix paths. |
| C91 | Slices of a mesh | proved | 5 in `PlotProps.v` | The cuts themselves (pyvista) are parameters; angles are exact and in degrees. C91_names_refuted shows a wrong name after an empty cut. |
| C92 | Contents of an atlas | proved | 5 in `PlotProps.v` | python-docx is taken to accept levels 0 to 9; every picture file is taken to be readable. |
| C93 | Cumulative plots | proved | 2 in `PlotProps.v` | The binning (matplotlib) is not modelled. |
| C94 | Reading a material card | proved | 6 in `MatTextProps.v` | The exceptions named in the statement are proved as the _refuted theorems. The density line of OpenMC materials is not modelled; nan, inf and underscores in numbers are errors of the model. |
| C95 | A written material card is read back | proved | 7 in `MatTextProps.v` | The exception is C95_missing_header_refuted. The texts of the in-line information (formula, weight, abundance) are parameters without line ends; names of at most ten characters; materials without MX cards. |
| C96 | Materials and MX cards of an input | proved | 7 in `MatInProps.v` | The exceptions are the two refuted theorems. The cards are those of the parser (numjuggler). |
| C97 | Layout of a written input file | proved | 3 in `InpWriteProps.v` | The exception is C97_blank_first_line_refuted. The text of a card (numjuggler) is a parameter. |
| C98 | Summary of the tallies | proved | 7 in `HelpProps.v`, `TalSumProps.v` | The exceptions are the _refuted theorems and C98_empty_multiplier. repr of a text is a parameter; which keys are tallies is decided by numjuggler's card type; rows of equal numbers have no specified order. |
| C99 | Scaling the densities | proved | 3 in `LookProps.v` | The exception is C99_zero_factor_refuted. Numbers exact; get_d and set_d of numjuggler read and rewrite the first hidden text (no cache). |
| C100 | Tables of densities and cells | proved | 4 in `LookProps.v` | The conversion of an atom density (materials) and the density of a void cell are parameters; every cell has a material number. |
| C101 | Looking up cards | proved | 6 in `LookProps.v` | The exception is C101_white_boundary_refuted. |
| C102 | Taking several cells out of cells | proved | 2 in `HashProps.v` | Cells of ordinary layout (number, material and density set apart by blanks, keywords not glued to the geometry); numjuggler as in C33. |
| C103 | The tables of the materials | proved | 6 in `MatInfoProps.v` | Exact fractions; a division by zero gives a missing number. The zaids need masses and unambiguous numbers (wf_material, consistent: what every constructor gives). |
| C104 | The in-line information of the zaids | proved | 4 in `MatInfoProps.v` | Exact fractions; the printed form of the numbers is not modelled. The two exceptions are the _refuted theorems. |
| C105 | Materials from lists of zaids | proved | 3 in `MatInfoProps.v` | translated is the relation of C22; the density given in the header is not modelled. |
| C106 | A cylindrical mesh is placed where its line says | proved | 8 in `TrsfProps.v` | Coordinates are exact numbers; nan and inf are not modelled. The exceptions are the _refuted theorems. |
| C107 | Every source of a CDGS file is read from its own text | proved | 4 in `TrsfProps.v` | Sources are Sensible: at least one boundary per axis, voxels in increasing order, as C55 asks. The exceptions are the _refuted theorems. |
| C108 | A weight window made from a mesh tally has the tally's mesh and flux | proved | 10 in `GvrProps.v` | Fluxes are exact numbers, at least one positive. The exceptions are the _refuted theorems. |
| C109 | The grid of a weight window stands where the window says | proved | 10 in `GridProps.v` (R) | Points are real numbers (single precision is not modelled); rotations are those pyvista documents. For other pairs of axis and vector the theorem gives the cylinder up to its starting angle. The exceptions are the _refuted theorems. |
| C110 | The XML text of materials says what the materials are | proved | 4 in `XmlProps.v` | The text of a number (str of a float) is a parameter; xml.etree.ElementTree is modelled from its documentation and source. The exception is the _refuted theorem. |
| C111 | Extracting sectors of E-Lite one after the other | proved | 13 in `EliteRunProps.v` | Reading the fields of a surface or transformation card from a numjuggler card and storing them back are parameters. The exceptions are the _refuted theorems. |
| C112 | The tallies an input lists over its life | proved | 12 in `TalHistProps.v` | The exceptions named in the statement are proved as the _refuted theorems. That numjuggler tells tallies by their name and reads their number is a hypothesis on the cards read (right). The exceptions are the _refuted theorems. |
| C113 | Translating a whole input | proved | 8 in `TranProps.v` | json.loads is a parameter; the exception is C113_unknown_library_refuted. |
| C114 | Translating twice | proved | 4 in `TranProps.v` | Fractions are exact rationals; the in-line information is not part of the statement. The exceptions are the _refuted theorems. |
| C115 | A weight window from file to file | proved | 6 in `WWFileProps.v` | Values must stay numbers a file can hold (0 or between 1e-999 and 1e998). The exceptions are the _refuted theorems. |
| C116 | When two irradiations are equal, and what modify_time_val stores | proved | 7 in `EqProps.v` | float() is exact in the model, and inf and nan are not numbers. Vectors: not transitive (_refuted). |
| C117 | The type and description of an RSSA file | proved | 10 in `RssaInfoProps.v` (R) | Real arithmetic for the radius and the standard deviation; infinite and NaN coordinates not modelled; the text of the radius is a parameter. The exceptions are the _refuted theorems. |
| C118 | The attributes of a mesh and what it says about itself | proved | 7 in `FmInfoProps.v` | The grid is in C56-C61. The second and third axes of print_info are the _refuted theorems. |
| C119 | The cross section of a nuclide for a type of reaction | proved | 7 in `NucXsProps.v` | The endf package (reactions, components, sum rules, names) is a parameter; values are exact rationals and the logarithmic decrement is a number of the nuclide; yields are taken to be true objects (no __len__ or __bool__). |
| C120 | Where the bytes of a file that are not UTF-8 are | proved | 3 in `UniProps.v` | open() is taken to use UTF-8 and universal newlines, the defaults of Python on the supported platforms. |
| C121 | The cross section of a material with any fractions | proved | 4 in `XsMatProps.v` | Continuous energies; the groups are in C88. The endf package and the interpolation are parameters, numbers are exact. |
| C122 | The comments of a card | proved | 6 in `CommProps.v` | The exceptions are the _refuted theorems. Text is ASCII. |
| C123 | The pictures of an RSSA plot | proved | 7 in `RssaPlotProps.v` | The exceptions are the _refuted theorems. The rounding of np.log10 and the drawing are not modelled. |
| C124 | Deleting the fills of the cells | proved | 3 in `FillProps.v` | numjuggler's remove_fill and its reading of the wrapped text are parameters: assumed to give a card of the same number without a fill. |
| C125 | The VTK file of a weight window | proved | 5 in `VtkProps.v` | The exception is the _refuted theorem. pathlib's stem and suffix are modelled; the content of the file is in C115 and not the VTK format. |
| C126 | An input in order stays in order | proved | 6 in `LifeProps.v` | The limits are hypotheses, one shown necessary by the _refuted theorem. Cards and dictionaries as in C28-C34; calls that raise end the history. |
| C127 | Runs of renumberings | proved | 3 in `LifeProps.v` | The limit is a hypothesis, shown necessary by the _refuted theorem. Cells and surfaces; the keys of the data cards change with the first call (C29). |
| C128 | A script on the dictionary of cards | proved | 10 in `CardsProps.v` | The exceptions named in the statement are proved as the _refuted theorems. The _refuted theorems are the limits named in the statement. numjuggler _set_value_by_type as in the Inp model. |
| C129 | The D1S work flow: reaction file, then translation | proved | 5 in `FlowProps.v` | Composition of the Paths, Mat, Lib and Data models; no file access. The _refuted theorems are the limits named in the statement. |
| C130 | Files of the D1S work flow on disk | proved | 4 in `FlowProps2.v` | Text of the files as lists of lines; library names of more than five characters are outside the claim (the parent column is 13 wide). |
| C131 | A material over its life | proved | 5 in `MatLifeProps.v` | Rational arithmetic instead of doubles. The _refuted theorem is the exception named in the statement. |
| C132 | From the bytes of an RSSA file to the maps of current | proved | 3 in `RssaAllProps.v` | Rational arithmetic instead of doubles; infinite weights and coordinates read as 0. The _refuted theorem is the exception named in the statement. |
| C133 | From a mesh tally to a weight-window file and back | proved | 2 in `GvrFileProps.v` | Composes C53, C108 and C115. Rational arithmetic instead of doubles; the reversed origin is the refuted part of C108. |
| C134 | From the text of a mctal file to the tables of its tallies | proved | 1 in `MctalAllProps.v` | Composes C62, C63 and C66. As in C63 the coordinates A and C of a mesh are excepted: they are exchanged there (C63_mesh_axes_exchanged_refuted). |
| C135 | From a meshtal file to the grids of its tallies | proved | 4 in `MeshAllProps.v` | Composes C41, C53, C56, C57 and C61. The restrictions on the text of a tally are those of C53; the centres of the cells are a parameter of the point cloud. |
