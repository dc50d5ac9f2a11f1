{"id": "C01", "title": "Block-2 mesh vectors survive compose/decompose", "statement": "Splitting a weight-window block-2 vector into coarse mesh points and fine-interval counts and composing it again gives back the same vector, and composing then splitting gives back the same coarse points and counts, whatever the coordinates are (including coordinates equal to 1, which is also the format's filler value).", "quantifier": "all coarse vectors of length n+1 and fine-count vectors of length n, n >= 0; all well formed block-2 vectors", "why_tests_cant": "The filler value 1 is removed by value, so correctness depends on which coordinates equal 1; tests fix a handful of meshes.", "anchors": ["src/f4enix/input/ww_gvr/utils.py:decompose_b2_vectors", "src/f4enix/input/ww_gvr/utils.py:compose_b2_vectors"]}
{"id": "C02", "title": "The fine mesh refines the coarse mesh", "statement": "The 1D fine mesh of a weight window has exactly (sum of fine counts)+1 points, starts and ends at the coarse mesh ends, contains every coarse point at the index given by the partial sums of the fine counts, is equally spaced inside each coarse interval and strictly increasing when the coarse mesh is.", "quantifier": "all coarse/fine vectors with positive fine counts", "why_tests_cant": "Quantifies over all mesh sizes and refinements.", "anchors": ["src/f4enix/input/ww_gvr/utils.py:build_1d_vectors", "src/f4enix/input/ww_gvr/geometry.py:Geometry.vectors"]}
{"id": "C03", "title": "Weight-window values keep their voxel through load and save", "statement": "Value number ((e*nfz+k)*nfy+j)*nfx+i of a particle's block in the file is what ww.values[particle][energy_e][k,j,i] returns, and saving lists the values of every particle and energy in exactly that order, so the sequence of numbers saved equals the sequence loaded, provided the energy bins of each particle are pairwise different. Exception: if two bins share an energy, a whole bin is silently lost.", "quantifier": "all meshes, numbers of energies, one or two particles, all values", "why_tests_cant": "Index arithmetic over arbitrary dimensions; the duplicate-energy collapse needs a history no fixture contains.", "anchors": ["src/f4enix/input/ww_gvr/weight_window.py:WW._nested_to_values_by_particle", "src/f4enix/input/ww_gvr/weight_window.py:WW._format_nested_energies_and_values"]}
{"id": "C04", "title": "Ratios are the maximum neighbour ratio", "statement": "ww.ratios of a voxel is the largest of max(a,b)/min(a,b) over its face neighbours b that exist and are positive (1 when there is none or the voxel is zero); it is at least 1, and if one neighbour of a positive voxel is positive the pair's ratio bounds both ratios from below.", "quantifier": "all 3D arrays of non-negative values, all voxels", "why_tests_cant": "Boundary and zero handling (0/0, x/0, out-of-mesh padding with 0) must be right for every voxel position and zero pattern.", "anchors": ["src/f4enix/input/ww_gvr/ratios_calculation.py:calculate_max_ratio_array"]}
{"id": "C05", "title": "Mitigation bounds every ratio", "statement": "After mitigate_long_histories(r), r >= 1, every voxel's ratio is at most r; voxels whose ratio was at most r keep their value, all others become 0; doing it a second time changes nothing; no voxel's ratio increases.", "quantifier": "all non-negative weight windows and all r >= 1", "why_tests_cant": "Zeroing a voxel changes the ratios of its neighbours; that one pass is enough is a statement on every array.", "anchors": ["src/f4enix/input/ww_gvr/weight_window.py:WW.mitigate_long_histories"]}
{"id": "C06", "title": "Multiply and soften act pointwise and compose", "statement": "multiply(f) multiplies every value of every particle and energy by f and leaves ratios unchanged for f > 0; multiply(f) then multiply(g) equals multiply(f*g); soften(s) raises every value to s, soften(s) then soften(t) equals soften(s*t), and the ratios of positive windows are raised to s; both change neither mesh nor energies, and the exposed ratios are always the ratios of the exposed values, after any sequence of edits.", "quantifier": "all weight windows, factors, and sequences of edits", "why_tests_cant": "The consistency of ratios with values must hold after every history of mutating calls, including the early-return paths.", "anchors": ["src/f4enix/input/ww_gvr/weight_window.py:WW.multiply", "src/f4enix/input/ww_gvr/weight_window.py:WW.soften", "src/f4enix/input/ww_gvr/weight_window.py:WW.values"]}
{"id": "C07", "title": "add_particle gives normalised, softened photon values", "statement": "After add_particle(norm, soft), every photon value is the neutron value of the same voxel and energy times norm**soft; the neutron values and the geometry do not change; a second call raises ValueError and changes nothing. This is the documented 'multiplied by a normalization factor and softened', (value*norm)**soft, exactly where the neutron value is 1 or soft is 1, and differs from it everywhere else.", "quantifier": "all neutron weight windows, all norm and soft", "why_tests_cant": "A difference shows only for soft != 1 and depends on the value.", "anchors": ["src/f4enix/input/ww_gvr/weight_window.py:WW.add_particle"]}
{"id": "C08", "title": "remove_particle undoes add_particle", "statement": "After add_particle then remove_particle the particles, energies, values, ratios, geometry and written file are the same as before; remove_particle on any two-particle window leaves exactly the neutron values; on a one-particle window it raises ValueError and changes nothing. Every window reached by any history of calls is of one of these two kinds. Exception: the exported grid keeps the arrays of the removed photons.", "quantifier": "all weight windows and edit histories", "why_tests_cant": "The VTK grid is a second copy of the state, kept in step by every edit; only an invariant over histories settles it.", "anchors": ["src/f4enix/input/ww_gvr/weight_window.py:WW.remove_particle", "src/f4enix/input/ww_gvr/geometry.py:Geometry.fill_grid_values"]}
{"id": "C09", "title": "A GVR is the flux scaled to the documented maximum", "statement": "create_gvr_from_meshtally_file(r) gives values proportional to the flux with maximum 2/(r+1), hence all in [0, 2/(r+1)], zero exactly where the flux is zero, preserving order and the ratios between voxels; softening then raises to the softening factor.", "quantifier": "all non-negative flux maps with at least one positive value and all r > -1", "why_tests_cant": "Quantifies over all flux maps.", "anchors": ["src/f4enix/input/ww_gvr/weight_window.py:WW._convert_flux_values_to_gvr", "src/f4enix/input/ww_gvr/weight_window.py:WW.create_gvr_from_meshtally_file"]}
{"id": "C10", "title": "A saved weight-window file loads back", "statement": "Loading a file written by write_to_ww_file gives the same mesh sizes, number of particles and energy counts, and every coordinate, energy and value rounded to the printed precision (5 significant digits); saving that again gives a byte-identical file. Holds while every mesh count is below 100000; at 100000 fine intervals or more the header count is printed with 5 significant digits and the file no longer matches its own data.", "quantifier": "all weight windows (cartesian and cylindrical, 1 or 2 particles), all decimal values", "why_tests_cant": "Needs every number's text form to have a separating blank and every block to wrap exactly at 6 items per line, for every length.", "anchors": ["src/f4enix/input/ww_gvr/ww_parser.py:write", "src/f4enix/input/ww_gvr/ww_parser.py:parse"]}
{"id": "C11", "title": "When loading a weight-window file terminates", "statement": "On every text file WW.load_from_ww_file returns a window or raises after at most one iteration per line, plus one, in each of its loops, always with the same answer, or it never ends at all. Every file written by write_to_ww_file that is cut at any line after its header is of the second kind: the load never ends (a truncated file is not reported).", "quantifier": "all input files", "why_tests_cant": "The reader loops until enough numbers were read; termination is a statement on all files and cannot be tested.", "anchors": ["src/f4enix/input/ww_gvr/ww_parser.py:_read_block_2_vector", "src/f4enix/input/ww_gvr/ww_parser.py:_read_block_3"]}
{"id": "C12", "title": "The cylindrical grid shows each voxel's value", "statement": "For a cylindrical window whose theta intervals were subdivided for display by a factor m, the exported grid cell (k*m+s, j, i) carries the value of voxel (k,j,i) for each s < m, and nothing else.", "quantifier": "all array shapes and extension factors", "why_tests_cant": "Index permutation for all shapes.", "anchors": ["src/f4enix/input/ww_gvr/geometry.py:Geometry._prepare_values_for_cylindrical_grid"]}
{"id": "C13", "title": "CLI: commands act on the window the user names", "statement": "In the f4enix_ww command line session no loaded window is ever lost, names stay unique, and every window is the result of loading a file, making a GVR or applying operations to another window; an operation, as typed (its word, the number of a listed window, its numbers in order), applies that operation with those numbers to that window, stores the result under the stem of '<name><suffix>' and changes no other name; for a name without a dot that is '<name><suffix>' and never the old name; a rejected or unfinished operation and the display commands change nothing; 'open' stores the file under its name without directory and extension; nothing typed ends the session with an exception if window operations raise only ValueError or FileNotFoundError. Exceptions: the word 'empty' ends the session with KeyError; the maximum splitting ratio typed for a GVR is passed as the tally number; a name with a dot may replace another window; opening a loaded stem asks again, then replaces the loaded window.", "quantifier": "all command sequences and names", "why_tests_cant": "Session state machine over arbitrary histories and user-typed names.", "anchors": ["src/f4enix/input/ww_gvr/cli.py:Menu"]}
{"id": "C14", "title": "Irradiation file write/read round trip", "statement": "An irradiation file object written to disk and read back gives the same number of schedules, header and, in order, the same daughters, decay constants, times and comments, provided no field contains blanks/newlines that its column cannot carry and the fields are shorter than their columns; an over-wide field is glued to its neighbour and is read back as something else, and a file whose last line lacks a newline can be read but not written (TypeError after a truncated output).", "quantifier": "all irradiation files", "why_tests_cant": "Fixed-width columns without separators: correctness depends on the length of each field.", "anchors": ["src/f4enix/input/d1suned.py:IrradiationFile.write", "src/f4enix/input/d1suned.py:IrradiationFile.from_text", "src/f4enix/input/d1suned.py:Irradiation.from_text"]}
{"id": "C15", "title": "Reaction file write/read round trip", "statement": "A reaction file object written to disk and read back gives, in order, the same parents, MTs, daughters and comments, under the column-width guard; over-wide fields are read back as something else.", "quantifier": "all reaction files", "why_tests_cant": "Same as the irradiation file: all field lengths.", "anchors": ["src/f4enix/input/d1suned.py:ReactionFile.write", "src/f4enix/input/d1suned.py:ReactionFile.from_text", "src/f4enix/input/d1suned.py:Reaction.from_text"]}
{"id": "C16", "title": "Irradiation schedules stay rectangular", "statement": "Starting from a file whose irradiations all have nsc times, after any sequence of add_irradiation_times / remove_irradiation_time / select_daughters calls the number of times of every irradiation equals the file's nsc; a rejected call changes nothing; adding n columns and removing them again restores the original.", "quantifier": "all files, all call histories", "why_tests_cant": "Invariant over histories, including rejected calls.", "anchors": ["src/f4enix/input/d1suned.py:IrradiationFile.add_irradiation_times", "src/f4enix/input/d1suned.py:IrradiationFile.remove_irradiation_time"]}
{"id": "C17", "title": "Daughter selection is exact", "statement": "select_daughters_irradiation_file keeps exactly the irradiations of the requested daughters, in order, and reports success iff each requested daughter was found (this fails when daughters are repeated); get_irrad returns the first irradiation of a daughter, or None iff there is none.", "quantifier": "all files and daughter lists", "why_tests_cant": "The report compares counts, which differs from 'all found' when duplicates exist.", "anchors": ["src/f4enix/input/d1suned.py:IrradiationFile.select_daughters_irradiation_file", "src/f4enix/input/d1suned.py:IrradiationFile.get_daughters"]}
{"id": "C18", "title": "Reaction library change touches only what was asked", "statement": "ReactionFile.change_lib(new) gives every parent the suffix new and leaves MTs, daughters, comments and order alone; with a library manager exactly the parents available in the new library change; a dictionary given as text stands for its first value. Exception: a dictionary together with a library manager never changes anything.", "quantifier": "all reaction files, library maps and available-library tables", "why_tests_cant": "Combination of map and availability.", "anchors": ["src/f4enix/input/d1suned.py:ReactionFile.change_lib", "src/f4enix/input/d1suned.py:Reaction.change_lib"]}
{"id": "C19", "title": "Zaid translation conserves the nuclide amount", "statement": "convertZaid answers with one of five translations: the zaid itself in the requested library, its natural element in it, the zaid in the default library, the zaid without library when another library for the same particle has it, or, for a natural element the library lacks, exactly its tabulated isotopes with their abundances; the fractions add up to 1, or to the sum of the element's tabulated abundances for an expansion; the element never changes and an assigned library has the zaid; an error is raised only for an unknown library, a malformed natural zaid, an isotope or nuclide that no library has (ValueError) or a default library that is not loaded (KeyError); check4zaid, get_libzaids and is_lib_available are exact. The answer is never empty when the element is in the isotope table. Exceptions: a natural element in neither library nor table is translated to nothing without an error; a default library that is not loaded gives KeyError even when another library has the nuclide.", "quantifier": "all zaids, libraries and availability tables", "why_tests_cant": "Many branches depending on the table; natural elements without natural isotopes are an untested corner.", "anchors": ["src/f4enix/input/libmanager.py:LibManager.convertZaid"]}
{"id": "C20", "title": "Zaid number and name conversions are inverse", "statement": "get_zaidnum of the formula given by get_zaidname is the identity on every zaid number Z*1000+A (Z in the element table, 0<=A<=999), and conversely, for every isotope table in which symbol and number of an element determine each other; get_formulazaid and get_zaidnum agree. With the shipped table it holds for every element but one. Exception: the shipped table gives nobelium (Z=102) the symbol Nb, so that its zaids come back as niobium.", "quantifier": "all zaids", "why_tests_cant": "All elements and mass numbers including one-letter symbols.", "anchors": ["src/f4enix/input/libmanager.py:LibManager.get_zaidname", "src/f4enix/input/libmanager.py:LibManager.get_zaidnum", "src/f4enix/input/libmanager.py:LibManager.get_formulazaid"]}
{"id": "C21", "title": "Natural abundances in the shipped isotope table are consistent", "statement": "Every row of the shipped isotope table is well formed and every zaid appears once; every abundance lies in ]0,1] and every mass is positive; the abundances of each tabulated element add up to 1 within 1.5e-4 (1e-4 for every element but argon); symbol and number of an element determine each other for every element but Z=41 and Z=102. Exceptions: argon adds up to 0.99985; Z=102 carries the symbol of niobium.", "quantifier": "every row of the shipped table", "why_tests_cant": "A finite check over the shipped data, exhaustive rather than sampled.", "anchors": ["src/f4enix/resources/Isotopes.txt", "src/f4enix/input/libmanager.py:LibManager.__init__"]}
{"id": "C22", "title": "Material translation conserves total mass/atom fraction", "statement": "SubMaterial.translate replaces each zaid, in order, by its translation: the sign convention, the element and an existing library are kept; the total of the mass fractions is kept exactly, and the atom fraction of each zaid is multiplied by the sum of the abundances of its translation (1, or within 0.015 % with the shipped table), as long as every zaid can be translated; materials and lists are translated submaterial by submaterial; it raises only when a zaid has no target library or the default library is not loaded. Exceptions: a zaid that cannot be translated disappears without an error; an exception half-way leaves the material partly translated.", "quantifier": "all submaterials, libraries and translation results", "why_tests_cant": "Quantifies over all compositions and translation tables.", "anchors": ["src/f4enix/input/materials.py:SubMaterial.translate"]}
{"id": "C23", "title": "Collapsing zaids conserves every nuclide's fraction", "statement": "After translation/merging each (nuclide, library) occurs once, its fraction is the sum of the fractions it had before, first-occurrence order is kept, and the total fraction is unchanged.", "quantifier": "all zaid lists", "why_tests_cant": "All multiplicities and orders.", "anchors": ["src/f4enix/input/materials.py:SubMaterial._collapse_zaids"]}
{"id": "C24", "title": "Atom/mass fraction switching", "statement": "Material.switch_fraction('mass'/'atom') on a material of the other type with positive atomic masses yields fractions of the requested sign whose absolute values add up to 1, in the physically right proportions (x_i*A_i, w_i/A_i), also in the element summary; switching there and back gives the normalised original fractions; inplace=False returns what inplace=True would store; a material already of the requested type is left as it is. Exceptions: hence such a card is not normalised; the list returned by an in-place switch holds empty submaterials.", "quantifier": "all materials with positive fractions", "why_tests_cant": "Algebraic law over all compositions.", "anchors": ["src/f4enix/input/materials.py:Material.switch_fraction"]}
{"id": "C25", "title": "Density conversions are inverse and do not alter the material", "statement": "For a material of tabulated nuclides get_tad(d) is d*N_A/A and get_density(t) is t*A/N_A with A its mean atomic mass, for cards in atom and in mass fractions, so that the two calls, made on the same object in either order, are inverse of each other. Exceptions: get_tad leaves a mass-fraction material in atom fractions and get_density an atom-fraction one in mass fractions; natural elements raise KeyError.", "quantifier": "all materials and densities", "why_tests_cant": "The hidden mutation shows only if the material is looked at afterwards.", "anchors": ["src/f4enix/input/materials.py:Material.get_tad", "src/f4enix/input/materials.py:Material.get_density"]}
{"id": "C26", "title": "Mixed materials have the requested proportions", "statement": "MatCardsList.generate_material produces a material made, in order, of one group of submaterials per requested (name, percentage): the last listed material of that name, translated and switched to the requested type, in its own proportions and adding up to the percentage (negated for mass fractions); the new name is used if valid, else M1. Exception: the source list is not left unchanged: all its materials, also unused ones, are translated in place.", "quantifier": "all material lists, percentages", "why_tests_cant": "Over all compositions; mutation of sources needs a history.", "anchors": ["src/f4enix/input/materials.py:MatCardsList.generate_material"]}
{"id": "C27", "title": "The material list and its dictionary agree", "statement": "After any sequence of append / extend / remove on any list, list[key] returns the last listed material of that name (whatever the case), KeyError exactly when there is none, and the dictionary's keys are exactly the names in the list; append adds at the end, extend adds exactly the materials whose name is not yet there, remove takes out the first equal material or raises ValueError. Names stay unique when append is given new names and extend distinct ones. Exception: append and extend accept duplicates otherwise, and the first material of the name can no longer be reached.", "quantifier": "all operation sequences", "why_tests_cant": "Invariant over histories.", "anchors": ["src/f4enix/input/materials.py:MatCardsList"]}
{"id": "C28", "title": "Merging inputs is the union or KeyError", "statement": "Input.merge(other) on disjoint numbers yields the union of the cells, surfaces, transformations, materials and data of both, in order; it raises KeyError exactly on a clash of cell, surface or transformation numbers, and never changes the cards of either input. Exception: a merge that fails on surfaces or transformations has already added the cells (it is not undone).", "quantifier": "all pairs of inputs", "why_tests_cant": "The failing insertion can be at any position of any block; atomicity is a statement about every failure point.", "anchors": ["src/f4enix/input/MCNPinput.py:Input.merge", "src/f4enix/input/MCNPinput.py:Input._safe_dict_update"]}
{"id": "C29", "title": "Renumbering shifts ids and every reference consistently", "statement": "renumber(offsets) adds its offset to every non-zero number of each card according to its type (cell, surface, material, universe, fill, transformation), in definitions and in references, and changes nothing else; 0 stays 0; distinct numbers of a type stay distinct; renum_all shifts everything but materials; with update_keys every card keeps its place and its key and name become the new number, so a shifted reference finds the shifted card. Exception: that update also renames the data cards (the tally stored as F4 is then stored under another key).", "quantifier": "all inputs and offsets", "why_tests_cant": "Collisions (id + offset = other id, negative offsets) and key order matter.", "anchors": ["src/f4enix/input/MCNPinput.py:Input.renumber", "src/f4enix/input/MCNPinput.py:Input._update_card_keys"]}
{"id": "C30", "title": "Extraction yields a self-contained model", "statement": "extract_cells / extract_universe yields exactly the requested cells and those they reference by complement (#) or fill universe, transitively, exactly the surfaces and materials these use, every transformation and data card, in increasing order, and changes nothing in the source input; with renumbering nothing changes in the source but its surfaces; keep_universe=False takes 'u=N' out of the text of the requested cells; the search ends whenever no two different cells need each other, directly or not. Exceptions: with two cells that exclude each other the search may never end; extraction with renumbering renumbers the surfaces of the source input; a universe written without an equal sign leaves a card that cannot be printed.", "quantifier": "all inputs (all reference graphs) and cell selections", "why_tests_cant": "Transitive closure over arbitrary reference graphs; termination cannot be tested.", "anchors": ["src/f4enix/input/MCNPinput.py:Input._extraction_function", "src/f4enix/input/MCNPinput.py:Input._collect_hash_uni"]}
{"id": "C31", "title": "Card dictionaries keep key and card number equal", "statement": "Assigning a card under a key in the cells/surfaces dictionaries renames the card to the key's number, also in its text if its number was printed; after any sequence of assignments of different cards the number of every key is the name of its card. Exception: one card stored under two keys leaves the first key wrong.", "quantifier": "all histories of assignments", "why_tests_cant": "Invariant over histories.", "anchors": ["src/f4enix/input/MCNPinput.py:CardsDict"]}
{"id": "C32", "title": "Reading cards loses no card", "statement": "Every cell, surface or data card in the input shows up in the corresponding dictionary, in order, under its own key, all keys different; a repeated number raises an error; the whole text, comments included, is kept as long as every run of comments is one card that is followed by a card. Exceptions: of two successive comment cards only the second is kept, and a final comment is lost.", "quantifier": "all card sequences", "why_tests_cant": "All interleavings of comments and cards.", "anchors": ["src/f4enix/input/MCNPinput.py:Input._to_dict"]}
{"id": "C33", "title": "Adding a surface to a cell cuts exactly that cell", "statement": "For a cell card whose geometry is separated from its material by a blank, add_surface / hash_cell / cells_union change the cell's region to the intersection or union with a half-space / the part outside a cell / the union of the cells: a point is in the new cell iff that boolean combination of the old regions says so; cells_union removes the listed cells and stores the union. Exception: a geometry glued to the material, '0(1:-2)', is not cut correctly.", "quantifier": "all cell region expressions and points", "why_tests_cant": "MCNP's operator precedence (':' binds weaker than blank, '#' strongest) makes textual insertion right or wrong depending on the expression.", "anchors": ["src/f4enix/input/MCNPinput.py:Input.add_surface", "src/f4enix/input/MCNPinput.py:Input.cells_union", "src/f4enix/input/MCNPinput.py:Input.hash_cell", "src/f4enix/input/MCNPinput.py:Input._add_symbol_to_cell_input"]}
{"id": "C34", "title": "Material replacement and void filling", "statement": "replace_material(new, density, old, universes) changes the material and density of exactly the cells with the old material (in one of the universes if given): in the text, material number and density are replaced (void cells lose their density, former void cells get one) and nothing else; a cell with a material accepts everything, a void cell accepts a positive material with a density of absolute value 1 or more (the test is on the integer part). get_cells_by_matID lists exactly the cells of a material. Exceptions: hence a void cell refuses a non-zero density below 1, and replacing void by void raises.", "quantifier": "all inputs, materials, densities", "why_tests_cant": "The rejected values are a range of reals.", "anchors": ["src/f4enix/input/MCNPinput.py:Input.replace_material", "src/f4enix/input/MCNPinput.py:Input.add_material_to_void_cell", "src/f4enix/input/MCNPinput.py:Input.set_cell_void"]}
{"id": "C35", "title": "Added tallies contain what was asked for", "statement": "add_F_tally registers the tally and stores a card with its name, the particles (one, or two, the second of one letter), every requested cell/surface id in order and T if asked for, an energy card with every energy within 5e-5 relative, a divisor card, a multiplier and a comment card when requested, and leaves every other card as it was; without particles it raises IndexError. Exceptions: particles after the second are left out and a second one of several letters is cut into letters; no cells give 'SD4 1 -1R'; cards not requested keep their old content.", "quantifier": "all particle lists, id lists and tally numbers", "why_tests_cant": "All list lengths (0, 1, 2, 3 particles ...).", "anchors": ["src/f4enix/input/MCNPinput.py:Input.add_F_tally"]}
{"id": "C36", "title": "check_range reports precisely the overlap", "statement": "check_range(range, who) returns True iff no id of the selected kind lies in the range.", "quantifier": "all inputs and ranges", "why_tests_cant": "All ranges and id sets.", "anchors": ["src/f4enix/input/MCNPinput.py:Input.check_range"]}
{"id": "C37", "title": "D1S reaction file covers all available paths", "statement": "D1S_Input.get_reaction_file contains exactly the reactions of the materials' nuclides available in the activation library whose daughters are in the irradiation file, each once, sorted, with parents under that library and a comment naming parent and daughter. It depends on the set of nuclides of the materials only, not on their order, number, fractions, libraries or materials; more daughters in the irradiation file never remove a reaction; without an irradiation file it raises ValueError.", "quantifier": "all inputs, libraries and irradiation files", "why_tests_cant": "Set comprehension over all inputs.", "anchors": ["src/f4enix/input/MCNPinput.py:D1S_Input.get_reaction_file", "src/f4enix/input/MCNPinput.py:D1S_Input.get_potential_paths"]}
{"id": "C38", "title": "RSSA tracks are read exactly", "statement": "Reading an RSSA file of D1S-UNED with a valid header and n track records yields the title, header, surfaces and exactly the tracks stored, each with its 11 numbers (the IEEE 754 value of each 64-bit word), in order; a file cut inside the header or a track record, a record whose two lengths differ in the header and other codes are refused. Exceptions: the announced number of tracks and the lengths around track records are not checked; a correct file whose last-dump number contains a byte that is not UTF-8 is rejected.", "quantifier": "all byte sequences/record contents", "why_tests_cant": "All record contents and counts.", "anchors": ["src/f4enix/output/rssa.py:RSSA", "src/f4enix/output/rssa.py:_read_tracks", "src/f4enix/output/rssa.py:_read_fortran_record"]}
{"id": "C39", "title": "Neutron and photon tracks partition the RSSA", "statement": "Each track whose packed word is a number is either a neutron or a photon track, never both nor neither, so that neutron and photon track numbers add up to the total; the masks depend on the word as MCNP packs it. Exception: a track whose word is NaN is in neither.", "quantifier": "all tracks", "why_tests_cant": "All bit patterns of the particle word.", "anchors": ["src/f4enix/output/rssa.py:RSSA"]}
{"id": "C40", "title": "Binning conserves weight", "statement": "plot_cyl's histogram places each selected track within the grid in the one bin whose lower edge is at most and upper edge above its angle and height (the largest going to the last bin), every cell shows the weight of its tracks per unit area and source particle times the normalisation, or their number (1 where there is none), and the totals are those of the selected tracks. Exceptions: x_range without z_range always raises; tracks all at the same height cannot be plotted.", "quantifier": "all tracks and grids", "why_tests_cant": "Edge cases at every bin boundary.", "anchors": ["src/f4enix/output/rssa.py:RSSA.plot_cyl", "src/f4enix/output/rssa.py:_closest"]}
{"id": "C41", "title": "Meshtal layouts agree", "statement": "A mesh tally printed in any of the MCNP layouts (column, ij, ik, jk) is read into the same array: value [t,e,k,j,i] is the one printed for time t, energy e and voxel (i,j,k). Exception: the column layout with volumes (out=cf) is read as an array of volumes and products.", "quantifier": "all mesh dimensions and values", "why_tests_cant": "Index permutations over all shapes.", "anchors": ["src/f4enix/output/meshtal/aux_meshtal_functions.py:_get_block_data", "src/f4enix/output/meshtal/aux_meshtal_functions.py:_get_column_data"]}
{"id": "C42", "title": "Decay pathway queries", "statement": "filter_pathways answers a legal query with exactly the rows of the library that have the asked dose level, spectrum and material and whose value at one of the asked cooling times is present, with their values at the asked times; every other query is refused with ValueError; narrowing a query never adds a row. get_pathways summarises them: every (element, isotope, pathway) of the answer occurs once, with the largest value over its rows at each time, ordered by the text of the zaid number (the numerical order when the numbers have equally many digits). The library has one row per row of the table given to the constructor. Exception: that table is changed and cannot be used again.", "quantifier": "all libraries and queries", "why_tests_cant": "Over all tables and combinations of optional criteria.", "anchors": ["src/f4enix/output/decay_pathways.py:PathwayLibrary.filter_pathways", "src/f4enix/output/decay_pathways.py:PathwayLibrary.get_pathways"]}
{"id": "C43", "title": "Volume sampling errors of a CUV file reach their voxels", "statement": "get_volume_sampling_error_from_cuv gives, for every voxel printed in the file, under its index minus one, the relative standard deviation sqrt((q-q^2)/n)/q of the volume of each of its cells, q being the printed volume fraction and n the sampled points; add_sampling_error_to_vtk writes to grid cell number m the largest error (that of the smallest cell) of the voxel printed with number m+1, 0 if there is none. For meshes along a single axis that is the voxel at the place of the grid cell. Exceptions: on every mesh with two long axes some cells show the error of a voxel elsewhere (voxels are numbered with k fastest, grid cells with i fastest); a file cut inside a voxel loses that voxel silently; text after the last voxel raises ValueError and a zero fraction ZeroDivisionError.", "quantifier": "all CUV files with fractions in ]0,1], all meshes and numbers of points", "why_tests_cant": "All block counts, sizes and mesh shapes.", "anchors": ["src/f4enix/output/cuv_sampling_error.py:get_volume_sampling_error_from_cuv", "src/f4enix/output/cuv_sampling_error.py:add_sampling_error_to_vtk"]}
{"id": "C44", "title": "Extracting sectors of E-Lite", "statement": "extract_sector accepts exactly lists of known sectors and cuts where the first starts and the last ends; for sectors listed counterclockwise the opening is the sum of their widths, and up to half a turn the two planes enclose exactly the directions of the sectors; the new outer cell is the old one between the planes and everything beyond a plane joins the graveyard, so that no point is left undefined and no overlap appears; the source is moved to the plasma cells of the sectors; every surface that is no boundary plane is written unchanged, boundary planes used by the sectors' own cells become reflecting, and those of fillers are moved by twice the tolerance, away from the sectors if their normal is that of the cut. Exceptions: lists with gaps are accepted; beyond half a turn part of the requested sectors goes to the graveyard; for the whole turn boundary planes are starred twice; filler planes with the reversed normal are moved into the sectors; rotated px/py/pz planes and cards ending in a comment stop the extraction; the displacement of a transformation is ignored.", "quantifier": "all sector lists, cells, surfaces, transformations and tolerances", "why_tests_cant": "All combinations of sectors, orders and surface cards.", "anchors": ["src/f4enix/input/elite.py:Elite_Input.extract_sector", "src/f4enix/input/elite.py:Elite_Input._get_boundaries_angles", "src/f4enix/input/elite.py:Elite_Input._modify_graveyard", "src/f4enix/input/elite.py:Elite_Input._set_boundaries", "src/f4enix/input/elite.py:Elite_Input._set_sdef"]}
{"id": "C45", "title": "The exported grid shows the current window", "statement": "After any sequence of edits, in every grid cell the VTK grid shows, for every particle and energy bin of the window, the current value and ratio of its voxel, and the maximum ratio over energies, provided the energies of a particle differ in their 2-decimal labels. Exception: energies with equal labels (for example two below 0.005 MeV) share one array, which shows the last.", "quantifier": "all windows and edit histories", "why_tests_cant": "The grid is a second copy of the data kept in step by each edit; labels are rounded energies.", "anchors": ["src/f4enix/input/ww_gvr/geometry.py:Geometry.fill_grid_values", "src/f4enix/input/ww_gvr/geometry.py:Geometry.fill_grid_ratios"]}
{"id": "C46", "title": "Parents of a reaction file are listed exactly once, sorted", "statement": "ReactionFile.get_parents returns, in code-point order and without repetition, exactly the zaids (text before the first dot) of the parents of the reactions.", "quantifier": "all reaction files", "why_tests_cant": "Quantifies over all files.", "anchors": ["src/f4enix/input/d1suned.py:ReactionFile.get_parents"]}
{"id": "C47", "title": "Masses and activation reactions look-ups", "statement": "get_zaid_mass returns the tabulated mass of a tabulated isotope and the abundance-weighted mass of the element for any other zaid of a tabulated element (KeyError for an unknown element). get_reactions returns, in the order of the activation sheet, exactly one (MT, daughter) pair per row of that parent, with 900 appended to the number of metastable daughters, when every daughter's element is known, and an empty list for an unknown library. Exception: a daughter of an unknown element silently ends the list at its row.", "quantifier": "all isotope tables, activation sheets, parents", "why_tests_cant": "The except-KeyError around the whole loop returns what was collected so far; which rows are lost depends on data no fixture has.", "anchors": ["src/f4enix/input/libmanager.py:LibManager.get_zaid_mass", "src/f4enix/input/libmanager.py:LibManager.get_reactions"]}
{"id": "C48", "title": "Atom densities from fractions and mass density", "statement": "Material.fractions_to_atom_densities replaces every fraction by the atom density N_i = rho*N_A*w_i/A_i (mass fractions) or x_i*rho*N_A/mean mass (atom fractions), normalising cards whose fractions do not add up to 1. The conversion of a list of materials does this to every material of it, up to the first that fails: those before it are converted, those after it are not touched. Converting again for the same density changes nothing. Exception (refuted): the material that fails is not left as it was.", "quantifier": "all materials with tabulated zaids, all densities", "why_tests_cant": "Algebra over all fractions and masses; the code goes through two in-place switches whose side effects must cancel.", "anchors": ["src/f4enix/input/materials.py:Material.fractions_to_atom_densities"]}
{"id": "C49", "title": "Reading the data section loses no card", "statement": "After reading an input file whose data cards have pairwise different normalised names, every card of its data section is stored exactly once in the input: material cards in the material list, TR cards in the transformations, all others in other_data under their normalised name. Exception: DF, SF and CF cards of a tally are stored under the tally's own name and replace it.", "quantifier": "all data sections (any number and kind of cards)", "why_tests_cant": "Depends on which card names collide after normalisation; fixtures use a few cards.", "anchors": ["src/f4enix/input/MCNPinput.py:Input._parse_data_section", "src/f4enix/input/MCNPinput.py:Input._clean_card_name"]}
{"id": "C50", "title": "PIKMT and track-contribution cards", "statement": "add_PIKMT_card lists each parent of the reaction file once, in order, with weight 0, replacing a previous card (without a reaction file nothing is added); add_track_contribution continues the tally's own card with FU<number> 0 and all the requested zaids, negative for parents and positive for daughters. No other card changes. Exception: a wrong `who` raises after the FU line has been added.", "quantifier": "all reaction files, tallies, zaid lists", "why_tests_cant": "All lists; also what is left behind when the request is rejected.", "anchors": ["src/f4enix/input/MCNPinput.py:D1S_Input.add_PIKMT_card", "src/f4enix/input/MCNPinput.py:D1S_Input.add_track_contribution"]}
{"id": "C51", "title": "The cards of a tally are selected by its exact number", "statement": "The summary of tally n uses exactly the cards whose name is F, letters, n (F4, FC4, FM4 for 4; never F14, F40 or FC14), and a tally just added is found with its description and multiplier.", "quantifier": "all tally numbers and all sets of cards", "why_tests_cant": "All pairs of numbers one of which is a prefix or suffix of the other.", "anchors": ["src/f4enix/input/MCNPinput.py:Input._get_tally_cards", "src/f4enix/input/MCNPinput.py:Input.get_tally_summary"]}
{"id": "C52", "title": "smart_translate gives every zaid its library", "statement": "smart_translate(activation_lib, transport_lib) with two different libraries translates every zaid that is a parent of the reaction file to the activation library and every other one to the transport library, moves the reaction file to the activation library and updates PIKMT; without a reaction file it raises and changes nothing. Exception: with two equal libraries it raises ValueError after the reaction file and PIKMT were changed.", "quantifier": "all materials, reaction files and pairs of libraries", "why_tests_cant": "Includes pairs with equal libraries and materials with no parent; depends on a dictionary keyed by library.", "anchors": ["src/f4enix/input/MCNPinput.py:D1S_Input.smart_translate"]}
{"id": "C53", "title": "Each mesh tally is read from its own text", "statement": "For a meshtal file with any number of tallies, readMesh(n) fills mesh[n] with the boundaries, particle, comments and values printed for tally n and nothing else; readMesh(list) reads exactly the listed tallies and readMesh() all of them; a number that is not in the file raises KeyError.", "quantifier": "all files (any number of tallies, layouts, bins, comments), all requests", "why_tests_cant": "Positions are found by scanning for marker lines; whether one tally's text bleeds into another depends on every line of the file.", "anchors": ["src/f4enix/output/meshtal/mesh_parser.py:MeshtalParser", "src/f4enix/output/meshtal/meshtal.py:Meshtal.readMesh", "src/f4enix/output/meshtal/aux_meshtal_functions.py:_scan_meshfile"]}
{"id": "C54", "title": "Values of a cell-under-voxel mesh", "statement": "Reading a CUV mesh whose voxels are filled (fractions adding up to 1, or lone filtered cells filling their voxel) gives every voxel, for every energy bin, the fraction-weighted sum of its (filtered) cells times the voxel volume (norm ctot) or divided by the filled fraction (celf), 0 when no filtered cell is in it, and the relative error of that sum. Exceptions: without norm every mesh is refused; meshes that print totals on their cell lines are refused; a lone filtered cell that does not fill its voxel is divided by its fraction without having been weighted.", "quantifier": "all meshes, numbers of cells per voxel, filters and both norms", "why_tests_cant": "Any number of cells per voxel and any filter; a slip in the record sequence would shift every later voxel.", "anchors": ["src/f4enix/output/meshtal/aux_meshtal_functions.py:_get_CUVmesh_data", "src/f4enix/output/meshtal/aux_meshtal_functions.py:_get_cuv_element"]}
{"id": "C55", "title": "CDGS sources are placed by voxel number", "statement": "Reading a CDGS source listed in increasing order gives the voxel with number m the fraction-weighted intensity of its cells for every energy bin and for the total, with its relative error, and 0 to every voxel that is not listed, however the numbers are wrapped on lines. Exceptions: a first voxel filled by nothing raises ValueError; a lone cell is not weighted by its fraction; voxels listed out of order are dropped.", "quantifier": "all sources: any sparse list of voxels, cells, energy bins, line wrappings", "why_tests_cant": "The file is sparse and self-synchronising; any list of voxels is possible.", "anchors": ["src/f4enix/output/meshtal/aux_meshtal_functions.py:_get_CDGSmesh_data", "src/f4enix/output/meshtal/aux_meshtal_functions.py:_read_cdgs_cell_info"]}
{"id": "C56", "title": "Selecting an energy and a time of a mesh", "statement": "get_etbin_data(ebin, tbin) returns a mesh with the same spatial boundaries, the chosen energy and time bin (negative numbers count from the end, the last is the total, None keeps all) and exactly the values of the original at those bins; a bin that does not exist raises TypeError.", "quantifier": "all meshes, with any number of bins of any kind, and all selections", "why_tests_cant": "Any number of bins, negative and total selections on both axes, alone or together.", "anchors": ["src/f4enix/output/meshtal/fmesh.py:MeshData.get_etbin_data", "src/f4enix/output/meshtal/meshtal.py:Meshtal.create_filtered_mesh"]}
{"id": "C57", "title": "The grid of a mesh shows every value where it belongs", "statement": "The grid of a mesh has, for every time and energy, one value array and one error array under a name that identifies the bin, listing the values of the cells in grid order (x1 fastest), no other arrays, and points at the corners of the voxels moved by the displacement of the mesh; cutting the first angular slice of a cylinder at half a turn changes no value at any angle; a Cartesian mesh is kept as it is. Exceptions: the rotation of a mesh is ignored; a mesh read through a filter loses its transformation; the last of several decay times is always called tTot.", "quantifier": "all meshes (Cartesian and cylindrical, any bins), labels and transformations", "why_tests_cant": "Names could collide and orders could differ for some number of bins or shape.", "anchors": ["src/f4enix/output/meshtal/fmesh.py:Fmesh._create_grid", "src/f4enix/output/meshtal/aux_meshtal_functions.py:_get_labels", "src/f4enix/output/meshtal/aux_meshtal_functions.py:_rectilinear_grid", "src/f4enix/output/meshtal/aux_meshtal_functions.py:_structured_grid"]}
{"id": "C58", "title": "A one-dimensional mesh converted to a tally table", "statement": "convert2tally of a mesh that varies along one axis only (space or energy) returns its number and one row per bin of that axis: upper boundary, value and error of that bin. Exceptions: of the other meshes some raise UnboundLocalError or KeyError instead of RuntimeError; a cylinder with two real half-turn slices loses the second.", "quantifier": "all meshes (any number of bins along each axis, both geometries)", "why_tests_cant": "All shapes; the slice taken depends on which axes have one bin.", "anchors": ["src/f4enix/output/meshtal/fmesh.py:Fmesh.convert2tally"]}
{"id": "C59", "title": "Collapsing meshes keeps every field", "statement": "collapse_grids(name_dict) of meshes with the same grid and pairwise different names, the first other than 'Error - Total', gives a grid with the cells of the first mesh and exactly one value and one error array per requested name, each a copy of that mesh's own totals; meshes with other grids are refused with RuntimeError. Exceptions: the first name 'Error - Total' loses the errors of the first mesh; meshes moved to different places by transformations are collapsed on the points of the first.", "quantifier": "all sets of meshes and all name dictionaries", "why_tests_cant": "Any number of meshes and any names, including names that collide with the default ones.", "anchors": ["src/f4enix/output/meshtal/meshtal.py:Meshtal.collapse_grids", "src/f4enix/output/meshtal/fmesh.py:Fmesh.sameMesh"]}
{"id": "C60", "title": "Transforming meshes", "statement": "apply_transformation moves every point of the grid by the TR card: its translation, or its rotation matrix applied as v*M and the translation, a rigid motion for an orthogonal matrix, equal to MCNP's meaning exactly when the matrix is symmetric, and changes no value; wrong cards are refused with no change; transform_multiple_fmesh moves each listed mesh by its own card and no other; transform_fmesh moves exactly the meshes whose FMESH card carries 'tr=N' in lower case without blanks, by TRN, and changes nothing when a TR is missing. Exceptions: other matrices rotate the opposite way; a singular matrix raises UnboundLocalError; 'tr = 5' raises KeyError and 'TR=5' is not seen; moving several meshes is not undone when one fails.", "quantifier": "all grids, TR cards, dictionaries and inputs", "why_tests_cant": "All points and matrices; which meshes are moved depends on every FMESH card of the input.", "anchors": ["src/f4enix/output/meshtal/fmesh.py:Fmesh.apply_transformation", "src/f4enix/output/meshtal/meshtal.py:Meshtal.transform_fmesh", "src/f4enix/output/meshtal/meshtal.py:Meshtal.transform_multiple_fmesh"]}
{"id": "C61", "title": "Text exports list every point with its values", "statement": "csv, point-cloud and Fluent exports list every point of the mesh once, in order, with its coordinates and its value of each requested array, every number within 0.0005 of the original (so that everything below 0.0005 becomes 0.000); the last two write one file per array when the array names differ without brackets and slashes; an unknown array raises KeyError.", "quantifier": "all grids, arrays, names and values", "why_tests_cant": "All values (sign, size, rounding) and all array names, which become file names.", "anchors": ["src/f4enix/output/meshtal/fmesh.py:Fmesh.write", "src/f4enix/output/meshtal/fmesh.py:Fmesh._write_csv", "src/f4enix/output/meshtal/fmesh.py:Fmesh._write_point_cloud", "src/f4enix/output/meshtal/fmesh.py:Fmesh._write_fluent", "src/f4enix/output/meshtal/fmesh.py:_clean_path"]}
{"id": "C62", "title": "Reading a mctal file gives every tally as written", "statement": "Mctal(file) of any MCNP mctal file with ordinary, radiography and mesh tallies holds the header data and, in file order, every tally up to the end or a blank line with its own particles, comment, cells, bins, mesh bounds and fluctuation chart, and the value and error of the bin (cell, dir, user, segment, multiplier, cosine, energy, time, k, j, i) are those at the place of that bin in the nested list of values. Exceptions: of the bounds of the picture of a radiography tally the last three on each axis are not kept; with INFO logging one NaN value makes the reader raise TypeError.", "quantifier": "all mctal texts: any number of ordinary and mesh tallies, bins, values per line, NaN and unreadable numbers", "why_tests_cant": "The place of a value depends on all numbers of bins at once and the reading position on all previous tallies.", "anchors": ["src/f4enix/output/mctal.py:Mctal._read", "src/f4enix/output/mctal.py:Mctal._getHeaders", "src/f4enix/output/mctal.py:Mctal._parseTally", "src/f4enix/output/mctal.py:Tally._getValue"]}
{"id": "C63", "title": "The table of a tally has a row for every bin", "statement": "For a tally read from a file, with at least one segment bin and only numbers as values, tallydata[n] has a row for every combination of cell and bins with its own bins, value and error, a row for the total of each cell when the tally has a total bin, and no other rows; a column of bins is missing only when it has no names or the same one everywhere. Exceptions: the mesh coordinates A and C are under exchanged names; one value (error) that is not a number removes the whole column of values (errors); the table of a radiography tally has no row for the last pixels of each axis whose bounds are not kept.", "quantifier": "all tallies read from a mctal file (any number of cells and bins)", "why_tests_cant": "Which columns and rows are dropped depends on all values of the table.", "anchors": ["src/f4enix/output/mctal.py:Mctal._get_dfs"]}
{"id": "C64", "title": "The table of totals", "statement": "totalbin[n] holds exactly the total row of every cell of tally n (value and error of the total bin) when the axis of the total names its bins, and is None when neither tally n nor an earlier one has a total. Exception: a tally without total after one with a total gets an empty table.", "quantifier": "all lists of tallies with different numbers", "why_tests_cant": "The result must not depend on the other tallies of the file.", "anchors": ["src/f4enix/output/mctal.py:Mctal._get_dfs"]}
{"id": "C65", "title": "The error summary reports the extreme errors", "statement": "get_error_summary has one line per tally, in order; when no two rows of its table are equal, with the smallest and the largest relative error over all its bins and totals and the value that goes with each; an error of 0 beside a value of 0 is reported as NaN. Exception: when a row was dropped as a duplicate the summary fails with IndexError or shows the value of another row.", "quantifier": "all tables of tallies", "why_tests_cant": "Minimum and maximum over any number of bins, with ties and dropped rows.", "anchors": ["src/f4enix/output/mctal.py:Mctal.get_error_summary"]}
{"id": "C66", "title": "Which malformed mctal files are refused", "statement": "A mctal file with no tallies, with perturbations, or with an ordinary tally that has fewer values than its bins call for or whole lines of values too many, is refused with an exception, wherever the tally is. Exceptions: extra values on the last line and one bin too many are accepted silently, a blank line hides the tallies after it, and a file cut before 'vals' is read for ever.", "quantifier": "all such files: any tally, any position", "why_tests_cant": "The fault can be anywhere and the reader must neither accept it silently nor loop.", "anchors": ["src/f4enix/output/mctal.py:Mctal._getHeaders", "src/f4enix/output/mctal.py:Mctal._parseTally", "src/f4enix/output/mctal.py:Tally._insertErg"]}
{"id": "C67", "title": "Reading a meshinfo file gives every mesh and every mass", "statement": "MeshInfoFile.from_file(file).info holds every mesh of a D1S-UNED meshinfo file under its number (the last one if a number is repeated) with the bins of its three axes, angles in revolutions, origin, axis and vec of a cylinder, and one row per cell inside each voxel whose mass is volume x fraction x density (divided by 2 pi in a cylinder), sorted by voxel, material and cell; a file that ends before the last voxel or cell of a mesh is refused.", "quantifier": "all meshinfo texts: any number of meshes, bins, voxels and cells per voxel, any place of the cut", "why_tests_cant": "The number of lines of each mesh depends on its bins and on the cells of each voxel; a wrong count only shows in the following voxels.", "anchors": ["src/f4enix/output/meshinfo.py:MeshInfoFile.from_file", "src/f4enix/output/meshinfo.py:_read_voxels", "src/f4enix/output/meshinfo.py:_read_header_cyl", "src/f4enix/output/meshinfo.py:_read_header_cart", "src/f4enix/output/meshinfo.py:_read_cell_part"]}
{"id": "C68", "title": "Queries on the masses of a meshinfo", "statement": "DataMass.get_filtered_dataframe returns exactly the rows whose voxel, material and cell are among those given (a criterion left out admits all) in their order; get_cells_from_materials the cells of the rows with these materials, each once; materials the materials of the rows in increasing order, each once.", "quantifier": "all tables of masses and all combinations of criteria, also empty ones", "why_tests_cant": "Set equality over any table and criteria.", "anchors": ["src/f4enix/output/meshinfo.py:DataMass.get_filtered_dataframe", "src/f4enix/output/meshinfo.py:DataMass.get_cells_from_materials", "src/f4enix/output/meshinfo.py:DataMass.materials"]}
{"id": "C69", "title": "Saving, loading and comparing a meshinfo", "statement": "A mesh read from a meshinfo file, saved in a folder (whatever was there before) and loaded from it is the mesh that was saved; == between meshes with the same numbers of bins is true exactly when coordinates, bins, masses and, for a cylinder, origin, axis and vec agree. Only for these: a mesh without masses cannot be loaded back, or gets the masses an earlier save left in the folder, and == raises for different numbers of bins.", "quantifier": "all meshes, all earlier contents of the folder, all pairs of meshes", "why_tests_cant": "Round trip over all meshes and all earlier histories of the folder.", "anchors": ["src/f4enix/output/meshinfo.py:MeshInfo.save", "src/f4enix/output/meshinfo.py:MeshInfoCyl.save", "src/f4enix/output/meshinfo.py:MeshInfo.load", "src/f4enix/output/meshinfo.py:MeshInfo.__eq__"]}
{"id": "C70", "title": "Lost particles of an MCNP output", "statement": "get_lp_debug_df has one row per lost particle reported in the output, in order, with the surface, cell, position and direction of its own report (a report cut by the end of the file is refused); print_lp_debug counts every pair of cell and surface once, most frequent first, lists every position, and by universe counts the particles in cells with a universe number. Particles in cells without universe are left out of the latter, and with an input but no lost particle the report fails with KeyError.", "quantifier": "all output texts, any number and place of reports, any input", "why_tests_cant": "The reports can be anywhere and any number of them; counts must add up for every file.", "anchors": ["src/f4enix/output/MCNPoutput.py:Output.get_lp_debug_df", "src/f4enix/output/MCNPoutput.py:Output.print_lp_debug"]}
{"id": "C71", "title": "Numbers of lost particles and histories", "statement": "get_tot_lp is the first whole number of the last line saying that particles got lost (None without such line or number), get_NPS the first whole number three lines below the first heading of the particle (an exception otherwise), get_LPR their ratio; without a line on lost particles get_LPR raises TypeError.", "quantifier": "all output texts and particles", "why_tests_cant": "First and last occurrence in any text.", "anchors": ["src/f4enix/output/MCNPoutput.py:Output.get_tot_lp", "src/f4enix/output/MCNPoutput.py:Output.get_NPS", "src/f4enix/output/MCNPoutput.py:Output.get_LPR"]}
{"id": "C72", "title": "Summary of the statistical checks", "statement": "get_statistical_checks_tfc_bins gives, for each tally of the first summary of the output, the result of its own line (missed, passed, all zeros), and no other tally. A tally line with none of these results gets the result of the tally before it, and if it is the first one an exception.", "quantifier": "all output texts: any number of tallies, any lines between", "why_tests_cant": "A loop variable that survives from one line to the next only shows on particular sequences of lines.", "anchors": ["src/f4enix/output/MCNPoutput.py:Output.get_statistical_checks_tfc_bins"]}
{"id": "C73", "title": "Tables of the statistical checks", "statement": "get_tally_stat_checks puts every word of the three rows of the first table of the tally in its own column, also when the two columns of the figure of merit are blank (shown as passed); get_stat_checks_table has a row per tally of the summary, sorted, with the results of its own table; a missing table is refused unless the tally is all zeros, and so is a file without tallies. A row with exactly one word missing is shifted, which hides a failed check.", "quantifier": "all output texts, all tallies", "why_tests_cant": "The alignment depends on which cells are blank; the table joins two places of the file.", "anchors": ["src/f4enix/output/MCNPoutput.py:Output.get_tally_stat_checks", "src/f4enix/output/MCNPoutput.py:Output.get_stat_checks_table"]}
{"id": "C74", "title": "Results under the description of their tally", "statement": "assign_tally_description keeps every result under the first comment line of its own tally (nothing without comment) and its number, in order, when every tally is in the list. A tally that is not in the list gets the description of the one before it, or an exception if it is the first.", "quantifier": "all lists of tallies and all results", "why_tests_cant": "A loop variable that survives from one tally to the next.", "anchors": ["src/f4enix/output/MCNPoutput.py:Output.assign_tally_description"]}
{"id": "C75", "title": "Printed tables of an MCNP output", "statement": "get_table(n, i) reads the i-th printed table n (from the end for negative i): it starts after its title, has two rows less than the lines up to its totals, and is cut into columns that end where the words of the row before the last end; no such table is refused. The columns are always those of the last instance, a row that starts without a blank loses its first column, and the table number is matched as a prefix.", "quantifier": "all output texts with any number of instances of the table, all indices, all rows of words", "why_tests_cant": "Offsets over any number of instances; widths for any row.", "anchors": ["src/f4enix/output/MCNPoutput.py:Output.get_table", "src/f4enix/output/MCNPoutput.py:Output._get_fwf_format_from_string"]}
{"id": "C76", "title": "Version of the code that wrote the output", "statement": "get_code_version is the D1SUNED version of the first line among the first 34 that has one; otherwise the MCNP version of the first line without the zeros at its ends (so 6.10 is shown as 6.1); otherwise, without other files in the folder, ValueError. An MCNP version in the second to fourth line is not found.", "quantifier": "all output texts", "why_tests_cant": "Precedence between places of any text.", "anchors": ["src/f4enix/output/MCNPoutput.py:Output.get_code_version"]}
{"id": "C77", "title": "Warnings and fatal errors", "statement": "get_warnings lists every text of a warning once, in alphabetical order, with the number of its lines (those on unused and on replaced surfaces put together if asked); the counts add up to the number of lines with a warning, also those the code calls not interesting. get_fatal_errors lists the text of every line starting with a fatal error, in order.", "quantifier": "all output texts", "why_tests_cant": "Counts must add up for every file.", "anchors": ["src/f4enix/output/MCNPoutput.py:Output.get_warnings", "src/f4enix/output/MCNPoutput.py:Output.get_fatal_errors"]}
{"id": "C78", "title": "Pathways of a FISPACT legacy output", "statement": "PathwayCollection.from_file gives one pathway per path of the section between the last line on significant loops and the last title of generic pathways, in order, with its own parent, intermediate nuclides (metastable or not), daughter, percentage and reactions; a file without these lines is refused, and so is a path with intermediates whose reactions do not fit. Exceptions: a path continued on a second line gets the nuclide and the reaction repeated there twice, and a direct path is accepted with any number of reactions.", "quantifier": "all output texts: any number of paths, nuclides and reactions", "why_tests_cant": "Texts of any length; the pairing of nuclides with reactions depends on the number of each.", "anchors": ["src/f4enix/output/fispact_legacy_out.py:PathwayCollection.from_file", "src/f4enix/output/fispact_legacy_out.py:Pathway"]}
{"id": "C79", "title": "Table and text of the pathways", "statement": "PathwayCollection.to_dataframe has one row per pathway with its nuclides, reactions and percentage, sorted by the text of the number of the daughter (so Mn56 comes before F20); an unknown element is refused, and so is an empty collection. str(pathway) shows each nuclide after the reaction that makes it.", "quantifier": "all lists of pathways, all isotope tables", "why_tests_cant": "Permutation and order over all collections.", "anchors": ["src/f4enix/output/fispact_legacy_out.py:PathwayCollection.to_dataframe", "src/f4enix/output/fispact_legacy_out.py:Pathway.__str__"]}
{"id": "C80", "title": "Reading an .eeout file of an unstructured mesh", "statement": "EEOUT(path).grid has one point per node of the file, with its own coordinates, and one cell per element with the nodes of the file (counted from 0), in order; each element has the name of its own material, its own density and volume; and for every edit the values and the relative errors of its own block, element by element, without the number for the whole mesh. Exceptions: of an edit with several bins only the last one is kept, and elements of the second order (ten nodes) get the cell type of a tetrahedron with four.", "quantifier": "all .eeout texts whose counts agree with their content: any number of nodes, elements, materials, edits and bins, with any numbers per line", "why_tests_cant": "The counts of the file say how its lines are cut; files of any size.", "anchors": ["src/f4enix/output/eeout.py:EEOUT.__init__", "src/f4enix/output/eeout.py:EEOUT._read_nodes_xyz", "src/f4enix/output/eeout.py:EEOUT._read_connectivity", "src/f4enix/output/eeout.py:EEOUT._read_edits", "src/f4enix/output/eeout.py:EEOUT._read_rho_vol", "src/f4enix/output/eeout.py:EEOUT._read_material"]}
{"id": "C81", "title": "What is refused in an .eeout file", "statement": "A file with elements of both orders or of none, with a number of particles other than that of its list, or with elements listed by node, is refused. Whatever the file, if it is read then it has the titles of its parts, the number of cells is the one counted in the file, all of them have 4 (or all 10) nodes, and every array is as long as the points or as the cells.", "quantifier": "all texts", "why_tests_cant": "Holds for malformed files too.", "anchors": ["src/f4enix/output/eeout.py:EEOUT.__init__", "src/f4enix/output/eeout.py:EEOUT._read_info", "src/f4enix/output/eeout.py:EEOUT._read_particle_list", "src/f4enix/output/eeout.py:EEOUT._read_connectivity"]}
{"id": "C82", "title": "Path of an exported unstructured mesh", "statement": "EEOUT.export(folder, name, format) writes folder/name.vtu, where the name is by default that of the eeout file up to its first dot; a missing folder is refused with ValueError and any format other than vtu with NotImplementedError.", "quantifier": "all folders, names and formats", "why_tests_cant": "Names with any dots.", "anchors": ["src/f4enix/output/eeout.py:EEOUT.export"]}
{"id": "C83", "title": "Reading an xsdir file", "statement": "Xsdir(file) has one table per entry of the directory, in order, with its own name, weight, file, access, type, address, lengths, temperature and probability-table flag (missing words are None), also when the entry is continued with + over several lines; awr gives every zaid its last ratio; datapath is what follows the first = of the first line. A file without the title of the weight ratios or without a directory is refused, and so is an entry with less than seven words. Lines after one with an odd number of words (up to the directory) and lines after a blank line of the directory are left out without notice.", "quantifier": "all xsdir texts: any number of weight lines, entries and continuation lines", "why_tests_cant": "Continuations and any number of lines.", "anchors": ["src/f4enix/input/xsdirpyne.py:Xsdir.read"]}
{"id": "C84", "title": "Looking up tables in an xsdir", "statement": "With library suffixes of three characters: find_table(name, 'exact') is true for the names of the tables and no other; 'default' gives all the tables of the zaid and only those, in order, and 'default-fast' their suffixes; zaid_has_table(zaid, lib) is true exactly if there is such a table; find_zaids(lib) gives the tables of the library. A longer suffix (1001.710nc) is found under another zaid and suffix.", "quantifier": "all lists of tables, all names", "why_tests_cant": "Agreement of four look-ups on every file.", "anchors": ["src/f4enix/input/xsdirpyne.py:Xsdir.find_table", "src/f4enix/input/xsdirpyne.py:Xsdir.zaid_has_table", "src/f4enix/input/xsdirpyne.py:Xsdir.find_zaids"]}
{"id": "C85", "title": "Serpent data from an xsdir", "statement": "metastable is 1 for a neutron table with A over 600, with Am-242 the other way round, and None for other tables. to_xsdata writes one line per neutron table, in order, with its own data; the first neutron table without temperature stops it with TypeError, and the lines before it are already in the file.", "quantifier": "all lists of tables", "why_tests_cant": "Which tables are written, and where it stops, depends on the whole list.", "anchors": ["src/f4enix/input/xsdirpyne.py:XsdirTable.metastable", "src/f4enix/input/xsdirpyne.py:XsdirTable.to_serpent", "src/f4enix/input/xsdirpyne.py:Xsdir.to_xsdata"]}
{"id": "C86", "title": "Libraries available for each code", "statement": "LibManager makes a library available for a code (mcnp, d1s) exactly when its row of the configuration has a path for the code and the file there has a table with that suffix, and looks zaids up in that very file, whatever the other rows; the default library is the one given, else the first row marked so, else 81c. Exceptions: a file given for two codes that read it in different ways is read only the first way, a path called dummy is not read, and an OpenMC file never has any table. For the code openmc every library whose row has a path has what is read from the file of that path, and no other library is there.", "quantifier": "all configurations: any number of codes, rows and files", "why_tests_cant": "The file of the row before is kept in a variable across rows and codes.", "anchors": ["src/f4enix/input/libmanager.py:LibManager.__init__", "src/f4enix/input/xsdirpyne.py:OpenMCXsdir.read"]}
{"id": "C87", "title": "ACE files of a library", "statement": "The ACE file used for a zaid and a library suffix is that of the first table with this name in the xsdir, taken from the folder of the xsdir unless its path is absolute; tables that are not of nuclides are left out.", "quantifier": "all lists of tables", "why_tests_cant": "First of several tables in any order.", "anchors": ["src/f4enix/input/ace.py:_xsdir_to_ace_filepaths"]}
{"id": "C88", "title": "Cross section of a material", "statement": "get_xs of a single nuclide gives at every energy its fraction times its own cross section, and 1 for the type unity; collapsed in groups it stays between the bounds of the cross section (so a constant one stays the same). For several nuclides the energies are those of all of them, in increasing order and without repetitions, but each fraction multiplies the cross section of the nuclide before it in the material (the last one for the first), so the result is not the weighted sum of the cross sections. Combination applies its operations from the left.", "quantifier": "all lists of nuclides, fractions, energy grids, cross section functions, types and group structures", "why_tests_cant": "A sum over any number of nuclides, for any functions.", "anchors": ["src/f4enix/input/ace.py:get_xs", "src/f4enix/input/ace.py:_get_xs_zaid_list", "src/f4enix/input/ace.py:Combination"]}
{"id": "C89", "title": "Categories of a plotted mesh", "statement": "With custom_categories, a value that reaches k of the n increasing thresholds belongs to category k. plot_slices labels it with category k+1 instead (n for the two last classes) on the first, third... slice plotted in the session, and on the second, fourth... one with category 1 unless it reaches every threshold (then n): a label is right on the first slice only from the largest threshold on. Labels are cut to ten characters. The colours used are those of the categories whose full name is the label of at least two cells, so TNF and SDDR plots never get any.", "quantifier": "all thresholds and categories, all values, all sequences of slices and of calls", "why_tests_cant": "The thresholds are reversed in place at each slice, so what is shown depends on the whole history.", "anchors": ["src/f4enix/output/plotter.py:MeshPlotter._add_categorization", "src/f4enix/output/plotter.py:MeshPlotter.plot_slices", "src/f4enix/constants.py:SDDR_CATEGORIES"]}
{"id": "C90", "title": "Images of the slices", "statement": "plot_slices returns one image per slice, in order, each with the name, mesh and stl of its slice; the legend has n_colors/2+1 labels when n_colors is even and under 30. With a folder, folder/name.png is the image of the last slice of that name and no other file changes. An unknown category or a missing folder is refused with ValueError before anything is drawn.", "quantifier": "all lists of slices, folders, numbers of colours and categories", "why_tests_cant": "Any number of slices and of repeated names.", "anchors": ["src/f4enix/output/plotter.py:MeshPlotter.plot_slices"]}
{"id": "C91", "title": "Slices of a mesh", "statement": "slice_toroidal cuts at start, start+increment... below the end (0 to 180 by default) and returns the cuts that are not empty, in order, each with its own stl; the names are right when no cut is empty, and a slice that follows k empty cuts is named after the angle k increments before its own. A zero increment is refused; a negative one gives no slice. slice and slice_on_axis give one slice per row or cut, in order; an axis other than x, y, z is refused.", "quantifier": "all increments, ranges, meshes (any set of empty cuts) and stl", "why_tests_cant": "The names depend on which earlier cuts are empty.", "anchors": ["src/f4enix/output/plotter.py:MeshPlotter.slice_toroidal", "src/f4enix/output/plotter.py:MeshPlotter.slice", "src/f4enix/output/plotter.py:MeshPlotter.slice_on_axis"]}
{"id": "C92", "title": "Contents of an atlas", "statement": "add_section adds the heading of the section and then each image in order under its own heading one level below (name, section name if asked, disclaimer); levels outside 0-9 are refused with ValueError without change, and level 9 with images after the heading was added. build_from_root adds every folder of the root in order, with its heading and its jpg, png and tif files from the oldest to the newest, each under its name without the last four characters; files of the root and deeper folders add nothing. The atlas is saved in the given folder under its name followed by .docx.", "quantifier": "all folders, images, levels", "why_tests_cant": "Any number of folders and files in any order of times.", "anchors": ["src/f4enix/output/plotter.py:Atlas.add_section", "src/f4enix/output/plotter.py:Atlas.build_from_root"]}
{"id": "C93", "title": "Cumulative plots", "statement": "CDFplot.plot draws the sets in order, each with its own label and with weights that add up to one; the pair of line style and colour repeats only every 36 sets. A number of labels different from that of the sets is refused with ValueError before anything is drawn; the 201st set is refused with IndexError after 200 were drawn.", "quantifier": "all lists of sets and labels", "why_tests_cant": "Any number of sets.", "anchors": ["src/f4enix/output/plotter.py:CDFplot.plot"]}
{"id": "C94", "title": "Reading a material card", "statement": "Material.from_text of the lines of a card (comment lines, the line with the name, data lines, then parts that each start with comment lines) gives the name, the comments as header and one submaterial per part, in order, with exactly the nuclides of its lines in order (element, mass number, library, fraction), its keywords and its comments, whatever follows a word starting with '$'. A first part without nuclides is left out. Exceptions: a nuclide whose fraction is on the next line is lost or the card refused; nuclides after a keyword on its line become keywords; the keywords of a first part without nuclides are lost; a card ending with a comment, or with '$' glued to a number, is refused; an indented comment becomes keywords.", "quantifier": "all cards: any number of comments, parts, lines, nuclides and keywords, any white space", "why_tests_cant": "Every layout of the lines of a card must give the same nuclides.", "anchors": ["src/f4enix/input/materials.py:Material.from_text", "src/f4enix/input/materials.py:SubMaterial.from_text", "src/f4enix/input/materials.py:readLine"]}
{"id": "C95", "title": "A written material card is read back", "statement": "to_text writes the header, the name in capitals and, per submaterial, its header, one continuation line (five blanks) per nuclide whose only words are its name and its fraction to seven digits, and its keywords. Reading it gives the same name in capitals, header, submaterials, nuclides in order, keywords, and fractions within half a unit of the seventh digit with the same sign; writing and reading again changes nothing. The text of a list is that of its materials in order. Exception: a submaterial after the first that has no header is merged with the one before it.", "quantifier": "all materials: any number of submaterials, nuclides, keywords, header lines, any fractions", "why_tests_cant": "The round trip must hold for every material and every fraction.", "anchors": ["src/f4enix/input/materials.py:Material.to_text", "src/f4enix/input/materials.py:SubMaterial.to_text", "src/f4enix/input/materials.py:Zaid.to_text", "src/f4enix/input/materials.py:MatCardsList.to_text"]}
{"id": "C96", "title": "Materials and MX cards of an input", "statement": "MatCardsList.from_input gives one material per material card, in order, each read together with the comment card just before it; MX cards that are followed by a card that is no material, or by nothing, belong to the material before them; an MX card before any material is refused with IndexError; without MX cards the list is written as in the previous property. Exceptions: MX cards directly followed by the next material card are given to that one, and a list with any MX card cannot be written (AttributeError).", "quantifier": "all sequences of data cards", "why_tests_cant": "Which material owns an MX card depends on the whole sequence of cards.", "anchors": ["src/f4enix/input/materials.py:MatCardsList.from_input", "src/f4enix/input/materials.py:Material.add_mx"]}
{"id": "C97", "title": "Layout of a written input file", "statement": "Input.write gives the header lines, the cells, one blank line, the surfaces, one blank line, then the transformations, the materials and the other data, every card once and in order with its lines that are not blank and without carriage returns: so the file has exactly two blank lines, where MCNP expects them. Exception: a card whose first line is blank adds a third blank line.", "quantifier": "all inputs: any number of cards with any texts, wrapped or not", "why_tests_cant": "Every card text must leave the blank lines where MCNP ends a block.", "anchors": ["src/f4enix/input/MCNPinput.py:Input.write", "src/f4enix/input/MCNPinput.py:Input.write_blocks", "src/f4enix/input/MCNPinput.py:Input._print_cards"]}
{"id": "C98", "title": "Summary of the tallies", "statement": "get_tally_summary gives one row per tally (or mesh tally) of the input, sorted by number, each from its own cards only: the particles of its own F (FMESH) line in capitals, the first line of its own FC card without the card name, and its own FM card - on one line, its first word as normalisation and its other words; on more lines, 'N.A.' and the words of the first line followed by every further line that is no comment. Without FC or FM card the entries are missing; without tallies it is refused with KeyError. Exceptions: one tally without n or p makes the whole summary fail (AttributeError), a second particle other than n and p is dropped leaving its comma, a card name in mixed case is kept in the description, the same text inside a description is removed, and an empty FM card is refused (IndexError).", "quantifier": "all inputs: any number of tallies, any other data cards, any descriptions and multipliers", "why_tests_cant": "Any number of tallies with similar numbers and cards in any order.", "anchors": ["src/f4enix/input/MCNPinput.py:Input.get_tally_summary", "src/f4enix/input/MCNPinput.py:Input._retrieve_input", "src/f4enix/input/MCNPinput.py:Input._retrieve_FM"]}
{"id": "C99", "title": "Scaling the densities", "statement": "scale_densities gives every cell that is not void the density times the factor, to six significant digits (relative error at most 5e-6, same sign), in the place of the old one; void cells, the rest of each card and every other card are unchanged. Exception: a factor 0 leaves cells with a material and the density 0, which MCNP refuses.", "quantifier": "all inputs, densities and factors", "why_tests_cant": "All cells and numbers.", "anchors": ["src/f4enix/input/MCNPinput.py:Input.scale_densities"]}
{"id": "C100", "title": "Tables of densities and cells", "statement": "get_densities_range has one row per material used by a cell that is not void, in increasing order, with the smallest and the largest density of its cells (absolute value of a negative density, conversion of another), both attained. get_cells_summary has one row per cell, in increasing order, with its own material, density, universe and filler; it is refused with KeyError without cells.", "quantifier": "all inputs; any conversion of atom densities", "why_tests_cant": "Any number of cells per material in any order.", "anchors": ["src/f4enix/input/MCNPinput.py:Input.get_densities_range", "src/f4enix/input/MCNPinput.py:Input.get_cells_summary"]}
{"id": "C101", "title": "Looking up cards", "statement": "get_cells_by_id and get_surfs_by_id return exactly the cards asked for, in the order of the request without repetitions, also those stored with an asterisk; copies are new cards equal to the originals. get_data_cards takes all of them from the other data or else all from the transformations. get_materials_subset gives the materials called so, in order, whatever the case of the letters. One missing card refuses the request with KeyError. Exception: a surface written with the mark '+' is not found by its number.", "quantifier": "all inputs and lists of ids", "why_tests_cant": "All requests against all inputs.", "anchors": ["src/f4enix/input/MCNPinput.py:Input.get_cells_by_id", "src/f4enix/input/MCNPinput.py:Input.get_surfs_by_id", "src/f4enix/input/MCNPinput.py:Input.get_data_cards", "src/f4enix/input/MCNPinput.py:Input.get_materials_subset"]}
{"id": "C102", "title": "Taking several cells out of cells", "statement": "hash_multiple_cells leaves each listed cell with exactly the points that were in it and in none of the cells whose lists name it; number, material, density and keywords of the cell stay and cards that are not listed do not change. A cell that is not in the input is refused with KeyError, after the cells before it were changed.", "quantifier": "all inputs with readable cells, all dictionaries of lists, with repetitions", "why_tests_cant": "All geometries and any number of repeated edits of one cell.", "anchors": ["src/f4enix/input/MCNPinput.py:Input.hash_multiple_cells", "src/f4enix/input/MCNPinput.py:Input.hash_cell"]}
{"id": "C103", "title": "The tables of the materials", "statement": "get_info gives two tables. The element table has one row for each element symbol present in each submaterial, ordered by submaterial and symbol, with the sum of the fractions of its zaids and that sum relative to the submaterial and to the material (parts that add up to one, missing when the divisor is zero); it is the same at both levels. The complete table has the zaids (or elements) of each submaterial as the card shows them, with atom and mass fractions: those of the card for the kind the card uses, and the converted ones otherwise. A list of materials gives the tables one after the other; no material, or a material without submaterials, is refused with ValueError.", "quantifier": "all materials and lists of materials, at both levels", "why_tests_cant": "All compositions, with repeated zaids and elements spread over submaterials.", "anchors": ["src/f4enix/input/materials.py:Material.get_info", "src/f4enix/input/materials.py:SubMaterial.get_info", "src/f4enix/input/materials.py:MatCardsList.get_info"]}
{"id": "C104", "title": "The in-line information of the zaids", "statement": "After a translation, every zaid written on the card carries its formula, its percentage in its element (these add up to 100 for an element) and the mass fraction of its element in its submaterial. It is computed whenever the zaids are known, no submaterial is empty and no element has fractions adding up to zero. Exceptions: with such an element (ZeroDivisionError) or such a submaterial (KeyError) translate raises after it has changed the material.", "quantifier": "all materials of one kind of fractions", "why_tests_cant": "All compositions.", "anchors": ["src/f4enix/input/materials.py:SubMaterial._update_info", "src/f4enix/input/materials.py:Element.update_zaidinfo", "src/f4enix/input/materials.py:Material._update_info", "src/f4enix/input/materials.py:Material.translate"]}
{"id": "C105", "title": "Materials from lists of zaids", "statement": "Material.from_zaids makes a material of one submaterial whose zaids are the translations to the library of the entries, in order, each entry a formula or the digits of a zaid; the header and the name are the given ones. If nothing can be translated it is refused with ValueError, and an unknown symbol with KeyError.", "quantifier": "all lists of formulas and zaids with fractions, all libraries", "why_tests_cant": "All lists and library contents.", "anchors": ["src/f4enix/input/materials.py:Material.from_zaids"]}
{"id": "C106", "title": "A cylindrical mesh is placed where its line says", "statement": "For every line 'origin at O axis in A direction, VEC direction V' of a meshtal whose axis has about unit length, the mesh read has origin O, axis A, vector V and the rotation whose rows are V, A x V and A: a right-handed orthonormal frame when A and V are orthonormal. A line without the vector (MCNP5) gives, for an axis along z, no placement when O is within 1e-12 of zero and otherwise the displacement O without rotation. The line of a CDGS source gives no placement when it is the standard one. Exceptions (defects): an MCNP5 line with another axis raises AttributeError; the vector takes no part in recognising an unrotated mesh (an axis with first and third coordinate 1 counts as unrotated); a CDGS source placed anywhere else than at the origin, unrotated, raises UnboundLocalError; a cylindrical CDGS source raises ValueError.", "quantifier": "all lines with any origin, axis, vector and blanks", "why_tests_cant": "The rotations and texts are unbounded; the tests have three placements.", "anchors": ["src/f4enix/output/meshtal/aux_meshtal_functions.py:_get_transformation", "src/f4enix/output/meshtal/aux_meshtal_functions.py:_get_rotation_matrix"]}
{"id": "C107", "title": "Every source of a CDGS file is read from its own text", "statement": "For every CDGS file with any number of unrotated rectangular sources one after the other, CDGSMeshParser lists the number of every source once and get_FMesh(n) gives the mesh of source n: its comment, cooling time and strength, its energy bins or lines, its boundaries, one time bin, and in every voxel the intensity (cells weighted with the fraction they fill) and its error for every energy bin and for their total, zero where the source lists no voxel, whatever the other sources are. A number the file does not have raises KeyError. Exceptions (defects): one further line between two sources makes the last source disappear without a word; a file cut before the end of a source is read for ever.", "quantifier": "all CDGS files: any number of sources, sizes of meshes, energies, cells and voxels, any wrapping of the numbers over lines", "why_tests_cant": "The tests read one file with one source.", "anchors": ["src/f4enix/output/meshtal/mesh_parser.py:CDGSMeshParser", "src/f4enix/output/meshtal/aux_meshtal_functions.py:_scan_cdgsfile", "src/f4enix/output/meshtal/aux_meshtal_functions.py:_get_cdgsmesh_boundaries", "src/f4enix/output/meshtal/aux_meshtal_functions.py:_get_cdgsheader"]}
{"id": "C108", "title": "A weight window made from a mesh tally has the tally's mesh and flux", "statement": "For every meshtal file, create_gvr_from_meshtally_file takes the tally asked for (by default the one with the lowest number) and gives a window with one particle, one energy (100 MeV), the boundaries of the tally on its three axes, and in every voxel the flux divided by the largest flux and multiplied by 2/(r+1), where r is the maximum splitting ratio; a tally whose angles are one turn is cut in slices; the ratios are those of the values. A rectangular tally is placed where it is, a cylindrical one has its axis and starting vector. Softening softens that window. A tally with several energy groups, an absent tally and a file without tallies are refused. Exceptions (defects): the origin of a cylindrical tally is written back to front; a cylinder along z around the origin raises AttributeError; a cylinder pointing down raises ValueError; of several time bins only the first is used.", "quantifier": "all meshtal files, tallies, meshes, fluxes, splitting ratios and softening factors", "why_tests_cant": "The sizes of meshes and the values are unbounded; the tests make two windows.", "anchors": ["src/f4enix/input/ww_gvr/weight_window.py:WW.create_gvr_from_meshtally_file", "src/f4enix/input/ww_gvr/ww_parser.py:read_meshtally_file", "src/f4enix/input/ww_gvr/ww_parser.py:_read_header_from_meshtally_file", "src/f4enix/input/ww_gvr/ww_parser.py:_calculate_b2_vectors_from_meshtally"]}
{"id": "C109", "title": "The grid of a weight window stands where the window says", "statement": "For every weight window, the points of its grid are placed where its mesh says: without directors, at the three boundaries moved by the origin; with directors whose axis does not point down, on the right-handed cylinder with the window's origin and axis, radii, heights and angles in turns, the first radius drawn at a hundredth of the second when it is zero and one or two angular intervals cut in twenty pieces in all; the angles start from the window's vector when the axis is z and the vector is horizontal with y not negative, when the vector is x and perpendicular to the axis, and for the axis x with vector y. Every cell shows the value of the interval it is a piece of. Exceptions (defects): the grid of a rectangular window read from a file is moved by its origin twice; a vector with negative y is drawn mirrored, the vector z of an axis x is drawn as y; an axis pointing down raises ValueError; the directors of a file, which MCNP takes as points, are taken as vectors.", "quantifier": "all mesh vectors, origins, axes and vectors (real coordinates) and all values", "why_tests_cant": "Directions are a continuum; the tests draw two grids and compare no point with the window's directors.", "anchors": ["src/f4enix/input/ww_gvr/meshgrids.py:create_cartesian_grid", "src/f4enix/input/ww_gvr/meshgrids.py:create_cylindrical_grid", "src/f4enix/input/ww_gvr/geometry.py:Geometry._create_grid", "src/f4enix/input/ww_gvr/geometry.py:Geometry._prepare_values_for_cylindrical_grid"]}
{"id": "C110", "title": "The XML text of materials says what the materials are", "statement": "For every list of materials whose densities are set and whose zaids the library manager knows, to_xml gives a document with one material per card, in order, with the digits of its name as id, its name, the absolute density in g/cc when negative and in atoms/(b cm) otherwise, and one nuclide for every zaid of its elements in order, named by symbol and mass number (none for a natural element), with the absolute fraction by weight when negative and by atoms otherwise, one per line, indented, with reserved characters replaced by entities; and the text of the document determines all of these. Exception (defect): a material without a density, which is every material read from an input or made from zaids, makes it raise TypeError.", "quantifier": "all lists of materials, names, densities and fractions", "why_tests_cant": "Lists and names are unbounded; there is no test of to_xml.", "anchors": ["src/f4enix/input/materials.py:MatCardsList.to_xml", "src/f4enix/input/materials.py:Material.to_xml", "src/f4enix/input/materials.py:Zaid.to_xml", "src/f4enix/input/materials.py:indent"]}
{"id": "C111", "title": "Extracting sectors of E-Lite one after the other", "statement": "For every history of extract_sector calls on one Elite_Input, successful or not: every card of the input stays as it was read; what a call writes does not depend on the earlier calls, except through the table of the Excel file, which is that of the first call whose file could be read and, if checked, listed exactly the cells outside universes (a refused file leaves no table and writes nothing). A call that writes gives the cells of the sectors with the outer cell, the graveyard and all cells that come with them (excluded cells and fillers), wanted cells without universe and the others unchanged; the outer cell cut and the graveyard extended by the first and last boundary; the surfaces of those cells, starred or moved when they lie on a boundary and unchanged otherwise; their materials, all transformations, the header, and all data cards with only the two source cards rewritten. An unknown sector is refused by KeyError and an empty list writes nothing. Exceptions (defects): once a table is kept the Excel file and check_Elite of later calls are ignored in silence; the surfaces that cut the outer cell are not added, so the written file can use undefined surfaces.", "quantifier": "all inputs, tables, sectors, tolerances and histories of calls", "why_tests_cant": "The property quantifies over histories of calls on one object and over inputs of any size with shared, mutable cards; tests extract a few sectors once.", "anchors": ["src/f4enix/input/elite.py:Elite_Input.extract_sector", "src/f4enix/input/elite.py:Elite_Input._initialize_elite", "src/f4enix/input/MCNPinput.py:Input._extraction_function"]}
{"id": "C112", "title": "The tallies an input lists over its life", "statement": "For every life of an input (reading, add_F_tally, add_stopCard, merge with inputs that have their own lives): the input lists a tally exactly when it has the card F<n> and a mesh exactly when it has the card FMESH<n>; the numbers come in the order of reading, adding and merging; after a merge each data card is that of the other input if both have one; the tally added last has the cards it was asked for (cells, description, multiplier, energies, divisors) and every other card is the one before; get_tally_summary has one row per entry of the list. A tally or mesh card whose number the parser did not find is refused. Updating the keys (renumber or merge, when asked) succeeds when every card has a first word, keeps both lists, and files every card under its first word, nothing else being found there. Exceptions (defects): a tally both merged inputs have is listed twice with one and the same row; a tally refused for want of particles stays in the list; after the keys are updated (renumber or merge, when asked) a tally is filed under its first word, particles included, and its row in the summary is empty.", "quantifier": "all lists of data cards, all arguments and all finite histories of reading, adding and merging", "why_tests_cant": "The property quantifies over histories of operations on several inputs of any size; tests add one tally to one file.", "anchors": ["src/f4enix/input/MCNPinput.py:Input.from_input", "src/f4enix/input/MCNPinput.py:D1S_Input.from_input", "src/f4enix/input/MCNPinput.py:Input.merge", "src/f4enix/input/MCNPinput.py:Input.add_F_tally", "src/f4enix/input/MCNPinput.py:Input._update_card_keys", "src/f4enix/input/MCNPinput.py:Input.get_tally_summary"]}
{"id": "C113", "title": "Translating a whole input", "statement": "Input.translate takes a library as a name, as a dictionary (old library to new, or new library to zaids), or as a JSON text that spells such a dictionary, and the text does exactly what the dictionary does. When it returns, every material keeps its name and has each zaid of each submaterial replaced by the translation of that zaid to the library asked for, and in-line information could be made before and after; it returns in exactly these cases. The empty text, a text json.loads refuses and a material without in-line information are refused before anything changes; later failures stop at one material, those before it translated and those after it untouched. Dictionaries of other shapes are searched in their order. Exception (defect): a library that is not loaded is not refused; the first material is emptied and a KeyError follows.", "quantifier": "all library managers, arguments, JSON readers and lists of materials", "why_tests_cant": "The argument has several shapes and the call several points where it can stop, over material lists of any length; the tests translate one file to one known library.", "anchors": ["src/f4enix/input/MCNPinput.py:Input.translate", "src/f4enix/input/MCNPinput.py:Input.update_zaidinfo", "src/f4enix/input/materials.py:MatCardsList.translate", "src/f4enix/input/materials.py:MatCardsList.update_info", "src/f4enix/input/materials.py:SubMaterial.translate"]}
{"id": "C114", "title": "Translating twice", "statement": "Translating materials to a library a second time leaves them as they are: it raises nothing and every submaterial lists and shows the same zaids with the same fractions. This holds for zaids written without leading zeros and an isotope table without natural elements (the shipped one). Exceptions: 06000 can change again on the second translation; a dictionary from old to new libraries raises ValueError the second time when it does not start from the libraries it leads to.", "quantifier": "all library managers, libraries and lists of materials", "why_tests_cant": "Idempotence concerns every path of the conversion (kept, natural, expanded, default library, unassigned, dropped) for every nuclide; no test translates twice.", "anchors": ["src/f4enix/input/materials.py:MatCardsList.translate", "src/f4enix/input/materials.py:Material.translate", "src/f4enix/input/materials.py:SubMaterial.translate", "src/f4enix/input/libmanager.py:LibManager.convertZaid"]}
{"id": "C115", "title": "A weight window from file to file", "statement": "write_to_ww_file writes every proper window without an error, and load_from_ww_file gives back the same window to five significant digits: the same number of intervals of every mesh axis, the same particles in the same order, the same energies, under each energy the same value in the same voxel, the same origin and directors; its ratios are those of its values, and saving it again writes the same file. Proper windows are those with a mesh below 100000 intervals per axis and energies that differ in the five digits printed; every window reached from one by multiplying, softening, adding or removing a particle and mitigating is covered. Saved without a name it never overwrites the file it came from. Exceptions: energies that are printed alike become one bin and the values of the first are lost; windows of one folder whose names differ only in the suffix are saved to the same default file.", "quantifier": "all proper windows, and all sequences of calls on them", "why_tests_cant": "The round trip goes through the mesh vectors, the text and the reshaped arrays at once, for meshes of any size and any history; the tests compare a few files.", "anchors": ["src/f4enix/input/ww_gvr/weight_window.py:WW.write_to_ww_file", "src/f4enix/input/ww_gvr/weight_window.py:WW.load_from_ww_file", "src/f4enix/input/ww_gvr/weight_window.py:WW._build_header", "src/f4enix/input/ww_gvr/geometry.py:Geometry", "src/f4enix/input/ww_gvr/ww_parser.py:parse", "src/f4enix/input/ww_gvr/ww_parser.py:write"]}
{"id": "C116", "title": "When two irradiations are equal, and what modify_time_val stores", "statement": "irr1 == irr2 between irradiations whose fields are numbers is True exactly when daughter, decay constant and times agree, in order and as numbers, however they are written and whatever the comments; it is reflexive, symmetric and transitive. It raises ValueError, and only that, exactly when a decay constant is not a number or, the numbers of times being equal, a time is not. modify_time_val(i, v) stores v to four significant digits and changes nothing else, and the file can still be written and read back, every irradiation read being equal to the one written. Mesh Vectors are equal exactly when they have the same numbers of points, each less than 1.5e-6 from its counterpart: reflexive and symmetric. Exception: equality of Vectors is not transitive.", "quantifier": "all irradiations, all irradiation files their columns can carry and all values in range, all triples of mesh vectors", "why_tests_cant": "Equality laws and the round trip range over all texts and numbers; tests compare a few objects.", "anchors": ["src/f4enix/input/d1suned.py:Irradiation.__eq__", "src/f4enix/input/d1suned.py:Irradiation.modify_time_val", "src/f4enix/input/ww_gvr/models.py:Vectors.__eq__"]}
{"id": "C117", "title": "The type and description of an RSSA file", "statement": "rssa.type is 'multiple' exactly for a file of two or more surfaces; else it is 'cyl' whenever there are tracks and all are less than 1e-4 from one distance to the z axis, and 'cyl' means that each of the n tracks is closer than 1e-4*sqrt(n) to their mean radius; otherwise, and for a file without tracks, it is 'plane'. str(rssa) names the file, each surface and the type, and gives the numbers of neutron and photon tracks (which add up to the number of tracks), of recorded tracks, of histories and of contributing histories. rssa.filename is the last part of the path up to its first dot; rssa.histories is the absolute value of the first column. Exceptions: a plane whose tracks lie on one ring (or with one track) is called a cylinder; files of one folder can share rssa.filename and so the default names of their plots.", "quantifier": "all headers and track lists", "why_tests_cant": "The bound holds for any number of tracks and real coordinates; tests read two files.", "anchors": ["src/f4enix/output/rssa.py:RSSA.type", "src/f4enix/output/rssa.py:RSSA._get_info", "src/f4enix/output/rssa.py:RSSA.histories", "src/f4enix/output/rssa.py:RSSA.__init__"]}
{"id": "C118", "title": "The attributes of a mesh and what it says about itself", "statement": "Assigning type, comments or particle of an Fmesh accepts exactly texts and None, strength and cooling_time exactly numbers (a bool counts) and None; anything else raises TypeError and changes nothing. After every history of assignments, accepted or refused, each attribute holds the last acceptable value it was given, or None, and label, transformation, bins and data of the mesh are untouched. print_info() reports tally, type, comments, particle, first axis, energy and time bins and geometry; its entries for the second and third axes repeat the first one (refuted).", "quantifier": "all meshes, values and histories of assignments", "why_tests_cant": "Histories of any length with accepted and refused assignments in any order; no test assigns a wrong type and the one on print_info does not look at the axes.", "anchors": ["src/f4enix/output/meshtal/fmesh.py:Fmesh.type", "src/f4enix/output/meshtal/fmesh.py:Fmesh.strength", "src/f4enix/output/meshtal/fmesh.py:Fmesh.print_info"]}
{"id": "C119", "title": "The cross section of a nuclide for a type of reaction", "statement": "The table used is that of the available temperature nearest to the one asked for. The function returned for a type is, at every energy, the sum of the cross sections of the reactions of the type (0 for those the nuclide does not have), multiplied for the nu types by the neutrons of each reaction: the first total yield, otherwise the sum of the partial ones, otherwise 1; for the slowing-down power the sum is multiplied by the decrement. A type that is neither known by name nor a number raises TypeError, a nuclide that is not in the library KeyError. When the package gives no component for the special numbers, unity is 0 and the slowing-down power is the elastic cross section.", "quantifier": "all nuclides, temperatures, lists of types and energies", "why_tests_cant": "The data of a nuclide (reactions, products, temperatures) are unbounded; tests compare a few values of two isotopes.", "anchors": ["src/f4enix/input/ace.py:_continuous_energy_xs_nuclide", "src/f4enix/input/ace.py:Combination", "src/f4enix/input/ace.py:PLOT_TYPES_MT"]}
{"id": "C120", "title": "Where the bytes of a file that are not UTF-8 are", "statement": "Every file is read in exactly one way as a sequence of UTF-8 characters and of bytes that start none. debug_file_unicode(file) names exactly those bytes, in the order of the file, one line of text for each line that has some: the number of the line (lines end with \\n, \\r or \\r\\n), then the column of each (in characters, from 1) and its value with two hexadecimal digits. The text is empty exactly when the file is valid UTF-8.", "quantifier": "all files (sequences of bytes)", "why_tests_cant": "Every byte sequence, every mix of line ends and broken sequences; no test calls the function.", "anchors": ["src/f4enix/input/auxiliary.py:debug_file_unicode", "src/f4enix/input/auxiliary.py:_detect_decoding_errors_line"]}
{"id": "C121", "title": "The cross section of a material with any fractions", "statement": "get_xs(material, types, library, files) first turns the fractions into atom fractions that add up to 1. For every type and every energy of the union grid the value is the mean, weighted by the atoms of each nuclide (atom fractions, or mass fractions over atomic masses), of the values of the nuclides - each fraction with the nuclide before it in the list, the defect of C88; unity is 1. So only the proportions between the atoms count: neither the kind of the fractions nor their total changes the answer, and the value lies between the smallest and the largest of the nuclides. The material of the caller is changed by the query (refuted: it is not left as it was).", "quantifier": "all materials, libraries, types and energies", "why_tests_cant": "Ranges over every composition, kind of fractions and scale; tests compare one material.", "anchors": ["src/f4enix/input/ace.py:get_xs", "src/f4enix/input/ace.py:_get_xs_zaid_list", "src/f4enix/input/materials.py:Material.switch_fraction"]}
{"id": "C122", "title": "The comments of a card", "statement": "get_comments(card) reports, line by line and in order: a line with C or c in its first column followed by a blank, as a whole; of any other line, its text from the first dollar; nothing of a line without either. It is empty exactly when no line has a comment. Exceptions (refuted): the text from the first dollar of a C line is reported twice, a comment on a last line without newline is lost, and C lines that are indented or empty are not reported.", "quantifier": "all cards (lists of lines)", "why_tests_cant": "Every mix of comment lines, dollars and line ends; no test calls it with a dollar inside a comment line or without a final newline.", "anchors": ["src/f4enix/input/auxiliary.py:get_comments", "src/f4enix/constants.py:PAT_COMMENT_TEXT", "src/f4enix/constants.py:PAT_DOLLAR_COMMENT"]}
{"id": "C123", "title": "The pictures of an RSSA plot", "statement": "plot_cyl without an output folder writes nothing. With one it writes two files: the values at NAME.jpeg, NAME being the one given or FILE_PARTICLE_zN_thetaM. With the default names, plots of one RSSA file with different particle or divisions are never written over one another, and the two pictures of a plot are two files. The colours cover ten decades up to a power of ten not below the largest value (at most ten times it when it is 1 or more, a hundred otherwise); a plot without any positive value is refused. Exceptions (refuted): the errors are not at NAME_errors.jpeg, because the ending is added twice; a range given by the user is rounded to powers of ten, down above 1 and up below 1, so both of its ends can be off the scale.", "quantifier": "all files, folders, names, settings, largest values and ranges", "why_tests_cant": "Every name, setting and magnitude; the test saves one plot into a folder without looking at the names.", "anchors": ["src/f4enix/output/rssa.py:RSSA.plot_cyl", "src/f4enix/output/rssa.py:RSSA._generate_figures_current_cyl"]}
{"id": "C124", "title": "Deleting the fills of the cells", "statement": "delete_fill_cards leaves no cell with a fill and the keys of the cells as they were, in the same order: a cell without a fill stays the same card, unchanged; a cell with one is replaced by a new card, read from its text without the fill, under the same key (the card the caller may hold from before is changed too, but is no longer the cell of the input); no other card changes. A second call does nothing. If the text of a cell without its fill cannot be read, the cells before it are done, those after it are untouched, and the old card of that cell has lost its fill although it stays in the input.", "quantifier": "all inputs, numbers of cells and fills, and every cell at which it may fail", "why_tests_cant": "The dictionary is changed while it is walked, and the outcome depends on which cells share cards and where the parser fails; the test looks at one file.", "anchors": ["src/f4enix/input/MCNPinput.py:Input.delete_fill_cards", "src/f4enix/input/MCNPinput.py:CardsDict.__setitem__"]}
{"id": "C125", "title": "The VTK file of a weight window", "statement": "export_as_vtk(path) saves the grid in the folder of the path (or, without a path, in that of the weight window) under a name that always ends with .vts: what follows the last dot of the given name is replaced, an ending .vts is not doubled. Without a path the name is that of the weight window with .vts for its ending, so weight windows of one folder whose names have at most one dot and differ before it go to different files. Exception (refuted): without a path a name with two dots loses both endings, so ww.1.inp and ww.2.inp are both exported to ww.vts, one over the other.", "quantifier": "all paths and names", "why_tests_cant": "Ranges over every name; the tests use names without a dot or with one.", "anchors": ["src/f4enix/input/ww_gvr/weight_window.py:WW.export_as_vtk", "src/f4enix/input/ww_gvr/geometry.py:Geometry.export_as_vtk"]}
{"id": "C126", "title": "An input in order stays in order", "statement": "Call an input in order if its cells and its surfaces have different keys, every key is the number (with its asterisk) that its card prints and is named by, no number is zero or shared, and no card is stored twice. Whatever then happens to it - renumbering with update of the keys, merging with another input in order that shares no key, storing new cells under any number, replacing materials, scaling densities, extracting some of its cells into a new input (which is then followed) - in any order and any number of times, it is in order after every call that does not raise; the input that cells are extracted from stays in order too, unless the extraction renumbers (C30); so a number always leads to the one card that prints it, and a merge of two inputs in order with different keys never raises. Limits: an offset must not take a cell or surface to zero; cells extracted without their universe must still be printable without it (C30); and (refuted without it) two merged inputs must not have a surface *11 and a surface 11, which the keys do not tell apart.", "quantifier": "all inputs in order and all finite histories of those operations", "why_tests_cant": "The tests make one call on a file just read; the order of an input after a chain of operations is an invariant over all histories.", "anchors": ["src/f4enix/input/MCNPinput.py:Input.renumber", "src/f4enix/input/MCNPinput.py:Input.merge", "src/f4enix/input/MCNPinput.py:CardsDict.__setitem__", "src/f4enix/input/MCNPinput.py:Input.replace_material", "src/f4enix/input/MCNPinput.py:Input.scale_densities"]}
{"id": "C127", "title": "Runs of renumberings", "statement": "After any run of renumberings (with update of the keys) that does not raise, every cell and surface of an input in order is at its place in the dictionaries, its text template unchanged, each of its numbers moved by the sum of the offsets given for its type (universes and fills alike), zero staying zero, its name and key moved with it. So the outcome does not depend on how an offset is split over calls or on their order, and offsets that cancel bring cells and surfaces, cards and keys, back exactly. Limit (refuted without it): no number may reach zero on the way - a number that becomes zero stays zero, so minus one and then plus one does not bring cell 1 back.", "quantifier": "all inputs in order, all finite lists of offsets", "why_tests_cant": "The tests renumber once; that runs compose and cancel is a statement about all runs.", "anchors": ["src/f4enix/input/MCNPinput.py:Input.renumber", "src/f4enix/input/MCNPinput.py:Input._update_card_keys"]}
{"id": "C128", "title": "A script on the dictionary of cards", "statement": "The dictionaries of cells and surfaces accept an assignment exactly when the key is a string, the value is a card and the key (without its asterisk) reads as a number (a card without a number is also accepted under the key None); anything else is a ValueError that changes nothing. The card then takes the number of the key, in its name and in its values, and keeps its text. update() does this item by item: if it raises, the items before the faulty one are stored and nothing else is changed; if not, exactly its items are added or replaced and no other card is touched. So, whatever a script does with assignments, updates, del, pop, popitem and clear, and whatever raises on the way, every key is a string that denotes the number of its card, no key and no card being there twice, provided no card is put under a second key while it is still under the first (refuted without it: the first key then leads to a card of another number). Refuted for setdefault and |=, which store anything unchecked: setdefault adds the pair if the key is not there and does nothing otherwise, |= adds its keys; neither changes a card. del and pop take away exactly the entry of the key, or raise KeyError.", "quantifier": "all dictionaries, all finite sequences of operations with arguments of any type, including operations that raise", "why_tests_cant": "The tests assign a few cards; the claim is an invariant of all scripts.", "anchors": ["src/f4enix/input/MCNPinput.py:CardsDict.__setitem__", "src/f4enix/input/MCNPinput.py:CardsDict.update"]}
{"id": "C129", "title": "The D1S work flow: reaction file, then translation", "statement": "Make the reaction file from the materials and the irradiation file, then translate with it (two different libraries): every zaid of the materials with a reaction, in the activation library, to a scheduled daughter is translated to the activation library and every other one to the transport library; the reaction file is unchanged; the PIKMT card lists exactly the zaids with such a reaction, each once, in order, each followed by 0, and no other card changes. If the activation library has all those zaids and the transport library all the others, the call succeeds, nothing but the libraries of the zaids changes, and the reaction file made from the translated materials is the same one. A zaid ends in the activation library (neither the default nor a dosimetry library) only on behalf of a zaid with such a reaction: itself, its natural element, or an isotope of it. Refuted: if the activation library lacks such a zaid, it ends, without an error, in the default library and the PIKMT card lists it all the same; and natural elements expanded by the translation (fix_natural_zaid) come too late: their isotopes get the transport library and no PIKMT entry, although a reaction file made afterwards has their reactions.", "quantifier": "all activation data, materials, irradiation files, nuclear data libraries and library names", "why_tests_cant": "The tests translate one input with one library; the claim ties three calls together for every input.", "anchors": ["src/f4enix/input/MCNPinput.py:D1S_Input.get_reaction_file", "src/f4enix/input/MCNPinput.py:D1S_Input.smart_translate", "src/f4enix/input/MCNPinput.py:D1S_Input.add_PIKMT_card"]}
{"id": "C130", "title": "Files of the D1S work flow on disk", "statement": "The reaction file made from materials and an irradiation file can be written and read back unchanged (parents, MT numbers, daughters and comments: every field fits its column), so the translation with the file from disk is the translation with the one in memory. An irradiation file that was written and read back gives the same reaction file. Selecting daughters in the irradiation file selects, in their order, exactly the reactions with these daughters.", "quantifier": "all activation data with elements of the periodic table, mass numbers below 900 and usual MT numbers, library names of at most five characters, materials with numbered zaids, irradiation files that fit their format", "why_tests_cant": "Tests compare a few files; a column that is too narrow for some nuclide shows only with that nuclide.", "anchors": ["src/f4enix/input/MCNPinput.py:D1S_Input.get_reaction_file", "src/f4enix/input/d1suned.py:ReactionFile.write", "src/f4enix/input/d1suned.py:ReactionFile.from_text", "src/f4enix/input/d1suned.py:IrradiationFile.select_daughters_irradiation_file"]}
{"id": "C131", "title": "A material over its life", "statement": "Whatever a script does with a material - translations while its fractions are mass fractions, switch_fraction, get_tad, get_density, scaling all submaterials by a positive factor, in any order and number - its elements stay the same and the share of every element in the mass is exactly the one it started with (a zaid counts with its mass fraction, or with its atom fraction times its atomic mass); the fractions stay all of one kind; the shares of the elements add up to 1. So two scripts on the same material end with the same shares. Refuted for translations of atom fractions: C12 becomes natural carbon atom by atom and the share of carbon changes.", "quantifier": "all materials with numbered elements, all library managers with positive masses and abundances, all finite sequences of calls in which a translation finds an answer for every zaid and a switch finds all masses", "why_tests_cant": "The claim is an invariant of all sequences of calls; tests make one call on a few materials.", "anchors": ["src/f4enix/input/materials.py:Material.translate", "src/f4enix/input/materials.py:Material.switch_fraction", "src/f4enix/input/materials.py:Material.get_tad", "src/f4enix/input/materials.py:Material.get_density", "src/f4enix/input/materials.py:SubMaterial.scale_fractions"]}
{"id": "C132", "title": "From the bytes of an RSSA file to the maps of current", "statement": "A map of current exists exactly when it has at least one cell in each direction and the tracks selected do not all have the same z or the same angle. For every file that D1S-UNED writes, the neutron map and the photon map made from its bytes, with whatever numbers of cells, share out the weights in the file: the cells of the two maps, times the area of a cell and the source particles, add up to the normalisation times the sum of the weights stored in the tracks. Refuted for maps of adjacent ranges of z: a track whose z is the common limit is in neither.", "quantifier": "all files with the layout of D1S-UNED whose tracks have a number as particle word, all numbers of cells, all normalisations, all functions for angle and radius", "why_tests_cant": "The claim composes the reader, the masks and the binning for every file; tests read one file.", "anchors": ["src/f4enix/output/rssa.py:RSSA._read_rssa", "src/f4enix/output/rssa.py:RSSA.plot_cyl", "src/f4enix/output/rssa.py:RSSA._calculate_grid_axes_cyl", "src/f4enix/output/rssa.py:RSSA._closest"]}
{"id": "C133", "title": "From a mesh tally to a weight-window file and back", "statement": "For every tally of one energy group in every meshtal file, in any column layout: the weight window made from it is saved without an error; the file loads; what is loaded has the boundaries of the tally to five digits with one fine interval per coarse one (an angular slice that starts at the beginning and ends beyond half a turn is cut there), neutrons only, one energy of exactly 100 MeV, and in every voxel the flux of the tally divided by the largest flux and multiplied by 2/(r+1), to five digits; nothing else; its ratios are those of its values. The place is kept too: none for a rectangular tally, axis and angle vector for a cylindrical one, and its origin when its first and third coordinates agree.", "quantifier": "all meshtal files, all tallies with some positive flux and none negative, all splitting ratios above -1, all numbers a double holds, fewer than 100000 boundaries per axis", "why_tests_cant": "The claim is about the whole chain of reader, generator, writer and reader for every file; tests look at one file and one step.", "anchors": ["src/f4enix/input/ww_gvr/weight_window.py:WW.create_gvr_from_meshtally_file", "src/f4enix/input/ww_gvr/weight_window.py:WW.write_to_ww_file", "src/f4enix/input/ww_gvr/weight_window.py:WW.load_from_ww_file", "src/f4enix/output/meshtal/meshtal.py:Meshtal"]}
{"id": "C134", "title": "From the text of a mctal file to the tables of its tallies", "statement": "For every file with the text of some tallies of different numbers, whose values are numbers and which have a segment besides the total one, reading succeeds (without INFO logging; with it, the same is read or it fails) and the tables are made, one per tally, under its number and in the order of the file. The table of a tally has a row for every combination of cell and bins, which shows them with the value and the error at the place of that combination in the list of values printed in the file; a row for the total of every cell when the tally has a total, with the value and the error printed for it; and no other rows.", "quantifier": "all mctal files, all lists of tallies of different numbers, ordinary, mesh and radiography, all their bins", "why_tests_cant": "The claim is about every place of every list of values and the whole way from the text to the table; tests look at a few entries of a few files.", "anchors": ["src/f4enix/output/mctal.py:Mctal._read", "src/f4enix/output/mctal.py:Mctal._get_dfs"]}
{"id": "C135", "title": "From a meshtal file to the grids of its tallies", "statement": "For every file with the text of some tallies, reading all of them and making the grid of each succeeds (a cylindrical one needs an angular interval). The grid of a tally has two arrays for every time and energy and no others; they list, first coordinate fastest, the values and errors which the text of the file has for that time and energy, and its points are the corners of the voxels given in the file, placed by the origin, axes and transformation given there (a full turn in one interval is cut in two, which both show the values of the whole). The mesh filtered to an energy or time bin in range exists and shows the values of the file for the bins selected; a point cloud written for a time and an energy has a line per voxel with the value of the file for it.", "quantifier": "all meshtal files, all lists of tallies of different numbers in all their formats, all bins, all voxels", "why_tests_cant": "The claim is about every entry of every tally and the whole way from the text to the grid and the exported file; tests look at a few entries of a few files.", "anchors": ["src/f4enix/output/meshtal/meshtal.py:Meshtal.readMesh", "src/f4enix/output/meshtal/meshtal.py:Meshtal.create_filtered_mesh", "src/f4enix/output/meshtal/fmesh.py:Fmesh._create_grid", "src/f4enix/output/meshtal/fmesh.py:Fmesh._write_point_cloud"]}
