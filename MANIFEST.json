{
 "claims": [
  {
   "property": "C01",
   "status": "proved",
   "theorems": [
    "C01_framing",
    "C01_all_payloads",
    "C01_lines"
   ],
   "note": "Framing of unformatted files for all payloads; formatted lines with either line end."
  },
  {
   "property": "C02",
   "status": "proved",
   "theorems": [
    "C02_decode",
    "C02_every_pattern",
    "C02_every_single"
   ],
   "note": "All 2^32 patterns decode to exactly one value; every single has an encoding."
  },
  {
   "property": "C03",
   "status": "proved",
   "theorems": [
    "C03_integer_header",
    "C03_integer_continuation",
    "C03_printable",
    "C03_int"
   ],
   "note": "All |n| < 10^9, any field position, any readable neighbours."
  },
  {
   "property": "C04",
   "status": "proved",
   "theorems": [
    "C04_chunking",
    "C04_prefix"
   ],
   "note": "Both file kinds, any legal cut, any partition of calls."
  },
  {
   "property": "C05",
   "status": "proved",
   "theorems": [
    "C05_terminates"
   ],
   "note": "parse_file on any content, state and store ends (fuel never runs out)."
  },
  {
   "property": "C06",
   "status": "partial",
   "theorems": [
    "C06_skip",
    "C06_refuted"
   ],
   "note": "Proved for all layouts when the next name is in the allowed list (or the record has continuation lines); refuted for names missing from that list."
  },
  {
   "property": "C07",
   "status": "proved",
   "theorems": [
    "C07_recordcount"
   ],
   "note": "Relative to the record layouts of C06."
  },
  {
   "property": "C08",
   "status": "proved",
   "theorems": [
    "C08_row_count",
    "C08_fixed",
    "C08_named",
    "C08_named_all",
    "C09_own_data",
    "C08_single",
    "C08_same_single"
   ],
   "note": "All files described by file_of. For every record type each number is in the column of its name (C08_named). Reals in single precision: the nearest single (C08_single), exactly the number read in an unformatted file (C08_same_single). The whole-number columns of real section data are C56."
  },
  {
   "property": "C09",
   "status": "proved",
   "theorems": [
    "C09_succeeds",
    "C09_succeeds_below",
    "C09_own_data",
    "C09_ranges"
   ],
   "note": "All record types with a table; reading succeeds on described files."
  },
  {
   "property": "C10",
   "status": "proved",
   "theorems": [
    "C10_batch",
    "C10_same"
   ],
   "note": "Any two batch sizes of at least one."
  },
  {
   "property": "C11",
   "status": "proved",
   "theorems": [
    "C11_element",
    "C08_named"
   ],
   "note": "C11_element relates the lists to the bytes, C08_named to the names of columns and arrays."
  },
  {
   "property": "C12",
   "status": "proved",
   "theorems": [
    "C12_set"
   ],
   "note": ""
  },
  {
   "property": "C13",
   "status": "proved",
   "theorems": [
    "C13_name",
    "C13_text",
    "C13_exact"
   ],
   "note": "Names up to 64, text lines up to 72 characters stored exactly, longer ones cut."
  },
  {
   "property": "C14",
   "status": "proved",
   "theorems": [
    "C14_six",
    "C14_section_force",
    "C14_drift",
    "C14_kinematics",
    "C14_panel"
   ],
   "note": ""
  },
  {
   "property": "C15",
   "status": "proved",
   "theorems": [
    "C15_points"
   ],
   "note": ""
  },
  {
   "property": "C16",
   "status": "partial",
   "theorems": [
    "C16_real_partial",
    "C16_complex_refuted",
    "C16_half_refuted"
   ],
   "note": "Real results proved; the claim is false for complex results: the reader stores at most half of the numbers of any record with a complex result reference (C16_half_refuted), shown for a whole file by a witness (C16_complex_refuted)."
  },
  {
   "property": "C17",
   "status": "partial",
   "theorems": [
    "C17_same_kinds_partial",
    "C17_refuted",
    "C17_kept_refuted"
   ],
   "note": "Proved for runs of references listing the same kinds; false otherwise: for every state and record, a kind that is not listed keeps the range of the references before (C17_kept_refuted), and a witness file (C17_refuted)."
  },
  {
   "property": "C18",
   "status": "partial",
   "theorems": [
    "C18_section_partial",
    "C18_refuted"
   ],
   "note": "Proved with the fields, and without them before a record with an allowed name; false before other records, shown by a witness file."
  },
  {
   "property": "C19",
   "status": "proved",
   "theorems": [
    "C19_only"
   ],
   "note": "For files whose unlisted records can be passed over (skippable) and listed types that need no unlisted ones (self_contained)."
  },
  {
   "property": "C20",
   "status": "partial",
   "theorems": [
    "C10_batch",
    "C20_leftover_partial",
    "C20_refuted",
    "C20_element_refuted"
   ],
   "note": "Proved for all described files, and for any content up to the element type table; false in general (element types leak), shown by two witness files. C20_element_refuted: so for every reference to an element that only earlier files have."
  },
  {
   "property": "C21",
   "status": "proved",
   "theorems": [
    "C21_labels_top",
    "C21_labels_below"
   ],
   "note": ""
  },
  {
   "property": "C22",
   "status": "partial",
   "theorems": [
    "C22_accepted",
    "C22_sin_rejected",
    "C22_accepts_exactly",
    "C22_rejects_exactly",
    "C22_prefix_refuted",
    "C22_structure_refuted"
   ],
   "note": "Acceptance and splitting of every proper name proved when no SIF/SIU/SIN/FEM occurs within the prefix; exact characterisation of accepted and rejected names for all texts. Refuted without that proviso (R1_SIFT2.FEM is split as R,1,SIF), and names without the dot, or with a tail after the extension, are accepted (R12SIF, R1.SIFX)."
  },
  {
   "property": "C23",
   "status": "partial",
   "theorems": [
    "C23_assembly",
    "C23_files",
    "C23_nothing_else",
    "C23_small_letters_refuted"
   ],
   "note": "For every well-formed assembly and every set of files present: which files are read, in which order, and where their data is stored; for arbitrary contents: nothing but the files of the hierarchy is looked for. Refuted for a results file whose extension is in small letters: the model files are looked for instead."
  },
  {
   "property": "C24",
   "status": "partial",
   "theorems": [
    "C24_kept",
    "C24_new",
    "C24_assembly",
    "C24_fresh",
    "C24_name_needed",
    "C24_merged_refuted"
   ],
   "note": "All nodes kept but attributes of groups read anew; a file with one IDENT and no later HIERARCH only succeeds if there is no such data set; assemblies under an unused name keep everything. Refuted when record types are selected (only=...): an existing group is merged and its attributes overwritten. For conversions that raise see C75."
  },
  {
   "property": "C25",
   "status": "partial",
   "theorems": [
    "C25_opened",
    "C25_only_if_stored",
    "C25_number_refuted",
    "C25_small_letters_refuted",
    "C25_incomplete_refuted"
   ],
   "note": "Proved for well-formed files named after the superelement they hold, with capital type letter, hydrodynamic ones with the two records the data object reads when made (complete); refuted in general: a file holding another superelement number gives KeyError, small type letters UnboundLocalError, a hydrodynamic file without WDRESREF or WGLOBDEF NoSuchRecordError."
  },
  {
   "property": "C26",
   "status": "proved",
   "theorems": [
    "C26_fit",
    "C26_own_points",
    "C26_nothing_selected",
    "C26_selection_exists"
   ],
   "note": "Nodes by identity (position in the file), not only by coordinates; disconnected, every element has points of its own in order. Nodes and elements numbered in sequence on the file (mesh_in); C26_sequence_needed shows the code needs it. Selecting no element raises (C26_nothing_selected)."
  },
  {
   "property": "C27",
   "status": "proved",
   "theorems": [
    "C27_union",
    "C27_unknown",
    "C27_no_elements"
   ],
   "note": "Any element member lists, repeated and overlapping. A known set without element members raises ValueError (C27_no_elements)."
  },
  {
   "property": "C28",
   "status": "proved",
   "theorems": [
    "C28_kind",
    "C28_unknown"
   ],
   "note": "Kinds by element type number, alone or with sets; any other kind raises ValueError."
  },
  {
   "property": "C29",
   "status": "proved",
   "theorems": [
    "C29_offsets",
    "C26_fit"
   ],
   "note": "Offsets, lengths and types."
  },
  {
   "property": "C30",
   "status": "proved",
   "theorems": [
    "C30_nodes",
    "C30_elements"
   ],
   "note": "Both number types, aligned entry by entry with the coordinates and elements."
  },
  {
   "property": "C31",
   "status": "partial",
   "theorems": [
    "C31_node_results_partial",
    "C31_mixed",
    "C31_refuted"
   ],
   "note": "Proved when sets or kind are given or every node is used by an element. Without a selection and with disconnected=True the code returns the results of other nodes when some node is unused (C31_refuted)."
  },
  {
   "property": "C32",
   "status": "proved",
   "theorems": [
    "C32_product",
    "C32_steps",
    "C32_to_top",
    "C32_between",
    "C32_level1",
    "C32_outside"
   ],
   "note": "Product in any arithmetic; step by step in exact arithmetic (any ring), for affine matrices. hierarchy: parents exist at higher levels; C32_chain_needed shows the code loops otherwise."
  },
  {
   "property": "C33",
   "status": "partial",
   "theorems": [
    "C33_refuted",
    "C33_if_known_partial"
   ],
   "note": "Refuted for every file: no data object made by File knows its top level object (C33_refuted). C33_if_known_partial: would hold if it did. C79 says what works instead."
  },
  {
   "property": "C34",
   "status": "proved",
   "theorems": [
    "C34_sections",
    "C34_thicknesses",
    "C34_missing"
   ],
   "note": "A missing thickness raises KeyError."
  },
  {
   "property": "C35",
   "status": "partial",
   "theorems": [
    "C35_quad_partial",
    "C35_triangle_partial",
    "C35_shears_refuted",
    "C35_quad_decomposed",
    "C35_triangle_decomposed",
    "C35_result_points",
    "C35_curved_beam",
    "C35_first_order"
   ],
   "note": "Exact for every such field: stresses sxx, syy, txy at the nodes and both surfaces of six- and eight-node shells, all components of decomposed stress, curved beams; first-order elements return the values at their nodes. Not so for the two transverse shears of general stress at nodes, which the code sets to zero at the surfaces (C35_shears_refuted). Exact arithmetic over any field with a root of three; single precision rounding is not modelled."
  },
  {
   "property": "C36",
   "status": "proved",
   "theorems": [
    "C36_recombined",
    "C36_respts_not_decomposed"
   ],
   "note": "All values, all four shell types, exact arithmetic. At result points of thick shells nothing is decomposed by the code (C36_respts_not_decomposed)."
  },
  {
   "property": "C37",
   "status": "proved",
   "theorems": [
    "C37_axes",
    "C37_determined",
    "C37_getters"
   ],
   "note": "firsts/increasing are stated with numeric equality (NaN counts as equal to NaN, 0.0 as equal to -0.0, as np.unique does)"
  },
  {
   "property": "C38",
   "status": "partial",
   "theorems": [
    "C38_responses",
    "C38_wrong_count",
    "C38_unknown_body",
    "C38_time_domain",
    "C38_sections_partial",
    "C38_sections_count",
    "C38_sections_refuted",
    "C38_pressure",
    "C38_velocity",
    "C38_fluid_errors",
    "C38_panels",
    "C38_panels_none",
    "C38_named"
   ],
   "note": "Proved for files whose references form a grid with directions outermost (assumption in hydrodata.py:42-45). Section forces are right when records are grouped by section, and refuted when ordered by result reference as the code assumes for every record type."
  },
  {
   "property": "C39",
   "status": "proved",
   "theorems": [
    "C39_independent",
    "C39_dependent",
    "C39_missing",
    "C39_other_type",
    "C39_unknown_body",
    "C39_named"
   ],
   "note": "With several frequency-independent matrices for a pair and type the first is returned; bodies with several conditions use the first (assumption in the code)."
  },
  {
   "property": "C40",
   "status": "proved",
   "theorems": [
    "C40_together",
    "C40_close",
    "C40_final",
    "C40_closed_file",
    "C40_closed_data",
    "C40_methods",
    "C40_opened"
   ],
   "note": "All histories of opening, using and closing. get_noderesults checks its first argument before openness (C40_args_needed). get_nodes of data above the first level is only pass and gives None even when closed (C40_methods); other methods that are only pass are left out."
  },
  {
   "property": "C41",
   "status": "partial",
   "theorems": [
    "C41_refuted",
    "C41_one_partial",
    "C41_none_partial",
    "C41_repeated_partial"
   ],
   "note": "The code violates the property: the loop changes the set it iterates over, so RuntimeError is raised whenever a file is open and all but one stay open."
  },
  {
   "property": "C42",
   "status": "partial",
   "theorems": [
    "C42_document",
    "C42_xml",
    "C42_one_close",
    "C42_names_refuted",
    "C42_no_piece",
    "C42_start_after_close",
    "C42_no_section",
    "C42_no_section_cellpoints_partial",
    "C42_after_close_partial",
    "C42_wrong_state_refuted"
   ],
   "note": "Accepted calls write exactly the document they stand for, well-formed XML if the names given need no escaping (proved). Two parts fail and are refuted: names are not escaped; adding element node results before any piece, closing twice and a new piece after close raise TypeError/IndexError/ValueError instead of the writer error."
  },
  {
   "property": "C43",
   "status": "proved",
   "theorems": [
    "C43_payload",
    "C43_arrays",
    "C43_shaped_ints"
   ],
   "note": "Every array written: base64 decodes to an eight byte little-endian byte count and the bytes of the array in order (all arrays of a document are array_xml by C42_document). Item byte order is that of the array as given."
  },
  {
   "property": "C44",
   "status": "partial",
   "theorems": [
    "C44_connectivity",
    "C44_results",
    "C44_refuted",
    "C44_results_refuted"
   ],
   "note": "Permutation within each element, nothing crosses elements, and which element types are reordered how are proved. Refuted: six-node triangles in the connectivity and three-node beams/eight-node shells in the results are left in Sesam order."
  },
  {
   "property": "C45",
   "status": "partial",
   "theorems": [
    "C45_refuted",
    "C45_texts_partial",
    "C45_same_partial",
    "C45_period_partial"
   ],
   "note": "Refuted: connectivity is reordered in place. Proved instead: the exact text after k pieces, equality without element types 23 and 28, period six."
  },
  {
   "property": "C46",
   "status": "proved",
   "theorems": [
    "C46_along_axis",
    "C46_over_all",
    "C46_integers_refuted"
   ],
   "note": "Over the reals. Arrays of fixed-width integers containing the smallest one break the rule (C46_integers_refuted); outside the quantifier."
  },
  {
   "property": "C47",
   "status": "proved",
   "theorems": [
    "C47_principal",
    "C47_von_mises"
   ],
   "note": "Over the reals, at every point of an array."
  },
  {
   "property": "C48",
   "status": "proved",
   "theorems": [
    "C48_thickshell",
    "C48_eigenvalues"
   ],
   "note": "Over the reals; np.linalg.eig is taken to return the three eigenvalues in some order; that there are three is proved (C48_eigenvalues)."
  },
  {
   "property": "C49",
   "status": "proved",
   "theorems": [
    "C49_indices"
   ],
   "note": "No repeated element numbers."
  },
  {
   "property": "C50",
   "status": "partial",
   "theorems": [
    "C50_refuted",
    "C50_repaired_partial",
    "C50_parts_partial",
    "C50_number",
    "C50_last_line_refuted",
    "C50_string_refuted"
   ],
   "note": "False for the code: write_record calls a method that does not exist and always raises. Were it there, every sequence of records would be read back (names; numbers to eight digits, singles and whole numbers of nine digits exactly) once its last line is ended, which the class does not do. write_string leaves a spurious empty line."
  },
  {
   "property": "C51",
   "status": "proved",
   "theorems": [
    "C51_hierarchy",
    "C21_labels_top"
   ],
   "note": ""
  },
  {
   "property": "C52",
   "status": "proved",
   "theorems": [
    "C52_references",
    "C52_names"
   ],
   "note": ""
  },
  {
   "property": "C53",
   "status": "partial",
   "theorems": [
    "C53_element_results",
    "C53_mixed",
    "C53_thin_and_thick_refuted"
   ],
   "note": "For selections whose elements have one shape of result, with the records of a case in element order (C53_order_needed shows the need). A selection with thin and thick shells together raises ValueError though every record is there (C53_thin_and_thick_refuted)."
  },
  {
   "property": "C54",
   "status": "proved",
   "theorems": [
    "C54_field",
    "C54_refused",
    "C54_one",
    "C54_one_nearest",
    "C54_some_nearest",
    "C54_line",
    "C54_cut"
   ],
   "note": "float() is modelled without digit grouping by underscores, which Python would accept between digits."
  },
  {
   "property": "C55",
   "status": "proved",
   "theorems": [
    "C55_mesh",
    "C55_properties",
    "C55_cases",
    "C55_node_results",
    "C55_element_results"
   ],
   "note": "End to end: bytes of a file in a directory (sesam_file), open_sif, getters. Hypotheses say what the records mean (SaysSpec) and, for results, that the result blocks come in the order of the references (as in C29/C53, with witnesses there that this is needed)."
  },
  {
   "property": "C56",
   "status": "partial",
   "theorems": [
    "C56_partial",
    "C56_refuted"
   ],
   "note": "Proved for every field but those of section_cut; sfy and sfz of all types except GBARM and r of GCHANR are Int32 columns and lose their fraction, shown by a witness file."
  },
  {
   "property": "C57",
   "status": "partial",
   "theorems": [
    "C57_axes",
    "C57_converted",
    "C57_responses",
    "C57_named",
    "C57_sections_partial",
    "C57_pressure",
    "C57_velocity",
    "C57_panels",
    "C57_panels_none",
    "C57_matrices"
   ],
   "note": "End to end: bytes of a file in a directory (sesam_file), open_sif, getters. Hypotheses say what the records mean (HydroSays) and that references form a grid with directions outermost. Everything is proved except that section forces need records grouped by section; the other order is refuted as C38_sections_refuted. All theorems also for data sets of converted files (opens); C57_converted shows that these objects exist."
  },
  {
   "property": "C58",
   "status": "proved",
   "theorems": [
    "C58_sections",
    "C58_points",
    "C58_body",
    "C58_body_missing",
    "C58_no_records",
    "C58_matrices"
   ],
   "note": "For every complete file opened by open_sif, or converted, maybe among others, and found in the HDF5 file."
  },
  {
   "property": "C59",
   "status": "partial",
   "theorems": [
    "C59_ids",
    "C59_aligned_partial",
    "C59_aligned_refuted"
   ],
   "note": "The list of identifiers is proved; that it names the pressures holds when the file has panels and symmetry parts in ascending order and is refuted otherwise."
  },
  {
   "property": "C60",
   "status": "proved",
   "theorems": [
    "C60_data_sets",
    "C60_getters"
   ],
   "note": "From the bytes of all files of the assembly to the keys and objects of the opened file. C60_getters applies to places of the first level, and to every place of a results assembly, since only those objects have the methods."
  },
  {
   "property": "C61",
   "status": "partial",
   "theorems": [
    "C61_dictionary",
    "C61_str",
    "C61_literal",
    "C61_objects",
    "C61_closed",
    "C61_iteration_refuted",
    "C61_repr_partial",
    "C61_repr_refuted"
   ],
   "note": "Keys, values, items, look-ups and str are as claimed. Iterating over a file raises TypeError (__iter__ returns a view, not an iterator), and repr raises TypeError with two or more data sets (the objects cannot be sorted); both are refuted."
  },
  {
   "property": "C62",
   "status": "proved",
   "theorems": [
    "C62_counts",
    "C62_opened"
   ],
   "note": "From the bytes of all files of the assembly; hydrodynamic files with the records their constructor reads (others are not opened, C25_incomplete_refuted)."
  },
  {
   "property": "C63",
   "status": "proved",
   "theorems": [
    "C63_described",
    "C63_opened",
    "C63_says",
    "C63_superelement"
   ],
   "note": "Soundness of the calculation for all inputs; examples run it and the model on six of the repository test files. That it succeeds on the other files was observed by running the extracted function, not proved."
  },
  {
   "property": "C64",
   "status": "proved",
   "theorems": [
    "C64_one_file",
    "C64_appended",
    "C64_appended_new",
    "C64_separate",
    "C64_getters",
    "C64_names_needed",
    "C64_complete_needed"
   ],
   "note": "Hypotheses: different names (C24_merged_refuted and C64_names_needed show they are needed), prefixes without a slash, hydrodynamic files without files below them and with the records their constructor reads (C64_complete_needed: otherwise the whole HDF5 file cannot be opened)."
  },
  {
   "property": "C65",
   "status": "proved",
   "theorems": [
    "C65_field",
    "C65_results",
    "C65_file"
   ],
   "note": "Exact arithmetic in any field with a root of three. node_values (ElemValuesSpec) does not mention the matrices. Transverse shears of general stresses at the surfaces are zero by definition of the result (see C35). Hypotheses on the order of records as in C53; files through gives_element_results (C60, C64)."
  },
  {
   "property": "C66",
   "status": "partial",
   "theorems": [
    "C66_file",
    "C66_converted",
    "C66_six_nodes_refuted",
    "C66_all_cases_refuted"
   ],
   "note": "Proved for element types 15, 23, 24, 25, 28. Refuted: six-node triangles keep the order of Sesam; results of several cases (the docstring of VtuWriter) are refused. Hypotheses: records in sequence as in C26 and C31, one block of results per case, every node used by an element when nothing is selected and results are drawn (C31)."
  },
  {
   "property": "C67",
   "status": "proved",
   "theorems": [
    "C67_file",
    "C67_converted"
   ],
   "note": "Exact arithmetic; how numbers are rounded and stored (dtype) is left open but for width and name. Six-node triangles are excluded: their nodes are not put in VTK order (C44, C66). General stresses one surface at a time, since VtuWriter takes at most two axes. The blocks of a case are in element order (as in C65)."
  },
  {
   "property": "C68",
   "status": "proved",
   "theorems": [
    "C68_vonmises",
    "C68_principal",
    "C68_rounding"
   ],
   "note": "Rounding to nearest after each operation, any ties; components zero or in a range in which no intermediate result overflows or becomes subnormal. C68_rounding: such roundings exist."
  },
  {
   "property": "C69",
   "status": "proved",
   "theorems": [
    "C69_record",
    "C69_results",
    "C69_numpy",
    "C69_file",
    "C69_converted"
   ],
   "note": "Rounded model of the processing of element results; bounds hold for any order of summation in np.dot and both promotion rules of NumPy. C69_numpy shows that such arithmetic exists. Real results; numbers up to 2^100. C69_file: from the text of a file with one level opened by its name; C69_converted: all first-level data sets of converted files."
  },
  {
   "property": "C70",
   "status": "partial",
   "theorems": [
    "C70_refuted",
    "C70_python3_refuted",
    "C70_repaired_partial",
    "C70_numbers_refuted",
    "C70_shared_refuted",
    "C70_two_results_refuted",
    "C70_last_refuted",
    "C70_wide_refuted"
   ],
   "note": "The constructor raises; repaired as the parameters of the model say, the round trip holds for all models that avoid the further defects, each refuted with a witness."
  },
  {
   "property": "C71",
   "status": "partial",
   "theorems": [
    "C71_repaired_partial",
    "C71_default_refuted",
    "C71_python3_refuted"
   ],
   "note": "Holds with the constructor repaired and Python 2 dictionaries; the default nodes_id never works, in Python 3 no element can be added."
  },
  {
   "property": "C72",
   "status": "partial",
   "theorems": [
    "C71_repaired_partial",
    "C72_results_partial",
    "C72_nodes_refuted",
    "C72_scalar_refuted"
   ],
   "note": "Elements and results get free numbers; nodes are stored under None, scalars may replace an existing one."
  },
  {
   "property": "C73",
   "status": "partial",
   "theorems": [
    "C73_path",
    "C73_place",
    "C73_directory",
    "C73_opened",
    "C73_returned",
    "C73_link_refuted",
    "C73_output_refuted"
   ],
   "note": "Proved for paths that lead to the file under its own name, after any calls, failed ones too. Refuted: through a link of another name open_sif raises KeyError; without an output name two inputs of the same name in different directories write the same HDF5 file. Links to directories are not modelled."
  },
  {
   "property": "C74",
   "status": "partial",
   "theorems": [
    "C74_in_use",
    "C74_stays",
    "C74_left_refuted",
    "C74_same_name_refuted",
    "C74_reading"
   ],
   "note": "Proved as long as no call raises, and that a file in use keeps its contents whatever is called. Refuted: a call that raises while reading leaves its HDF5 file open for good, so that later calls for that name fail; two files of the same name in different directories cannot be in use together. Rests on the rules of PyTables and HDF5 for opening a file twice, stated in Session.v."
  },
  {
   "property": "C75",
   "status": "partial",
   "theorems": [
    "C75_same",
    "C75_kept",
    "C75_read_before",
    "C75_begins",
    "C75_lower",
    "C75_recovers",
    "C75_on_disk",
    "C75_opened_refuted",
    "C75_repeat_refuted",
    "C75_run_refuted",
    "C75_replaced_refuted"
   ],
   "note": "Proved for all bytes: what was stored is kept, only groups named by prefix and letter are new, runs read before the failure and files read before are stored, later assemblies are converted as ever. Refuted: after a failed append the HDF5 file cannot be opened (AttributeError) and the conversion not repeated (NodeError); records of the failing run are lost up to the last batch; without append the earlier file is gone."
  },
  {
   "property": "C76",
   "status": "partial",
   "theorems": [
    "C76_unnoticed",
    "C76_between_refuted",
    "C76_within_refuted"
   ],
   "note": "Refuted, and not by chance: every assembly whose top file is cut between two runs of records (the last of them not passed over and not a cross section) is converted without an exception, with exactly the records before the cut (C76_unnoticed). Within a record, missing numbers are taken to be 0 and a number cut off is read as far as it goes."
  },
  {
   "property": "C77",
   "status": "partial",
   "theorems": [
    "C77_clear",
    "C77_extremes",
    "C77_order_refuted",
    "C77_error_refuted",
    "C77_middle_refuted"
   ],
   "note": "proved where the eigenvalue of smallest absolute value is smaller than the others by more than twice the error (C77_clear: any order, any error); refuted otherwise: for stresses with eigenvalues 5, 1, -1 the second stress is 1 or -1 by the order of the eigenvalues or by the least error; for 4, 3, -1 the smallest and not the middle one is removed. Over the reals; the eigenvalues and their error are hypotheses on np.linalg.eig"
  },
  {
   "property": "C78",
   "status": "partial",
   "theorems": [
    "C78_listed",
    "C78_decoded",
    "C78_returned_refuted",
    "C78_empty_refuted"
   ],
   "note": "the names are listed as claimed (C78_listed), and a name given as str selects its set (C78_decoded: names all different, without single quotes, which go through a check of numexpr that is not modelled); refuted for the values returned, which are np.bytes_: NameError for every data set (C78_returned_refuted), and an unnamed set asked for alone gives all elements (C78_empty_refuted)"
  },
  {
   "property": "C79",
   "status": "proved",
   "theorems": [
    "C79_file",
    "C79_assembly",
    "C79_converted"
   ],
   "note": "Exact arithmetic (any ring); two-dimensional arrays. The first RSUPTRAN record is the one used. Levels and top without a record raise (see C33). C79_converted: data sets of HDF5 files that several files were converted into."
  },
  {
   "property": "C80",
   "status": "proved",
   "theorems": [
    "C80_file",
    "C80_assembly",
    "C80_converted"
   ],
   "note": "Any rounding to nearest, any order of summation and fused products; terms of a coordinate below 2^100. Matrices of single or double precision. C80_converted: data sets of HDF5 files that several files were converted into."
  },
  {
   "property": "C81",
   "status": "proved",
   "theorems": [
    "C81_nearest",
    "C81_period",
    "C81_degrees",
    "C81_divide",
    "C81_axes",
    "C81_converted",
    "C81_elevation"
   ],
   "note": "From the bytes of a file (C57) with the arithmetic of single precision, by itself or converted among others; ranges exclude overflow and infinite results."
  },
  {
   "property": "C82",
   "status": "proved",
   "theorems": [
    "C82_file",
    "C82_converted",
    "C82_jobs"
   ],
   "note": "From the files: open_sif, or sif2hdf5 and open, one file or several (C82_jobs); any product of matrices. Hypothesis: the records are a hierarchy (C32); chains and levels as in C32."
  },
  {
   "property": "C83",
   "status": "proved",
   "theorems": [
    "C83_file",
    "C83_converted",
    "C83_jobs"
   ],
   "note": "Columns of the matrices with sum of sizes at most c, (2c)^(n+1) at most 2^99, n at most 1000; matrices as in the records (single precision). One file or several converted together (C83_jobs). Axioms of the real numbers."
  },
  {
   "property": "C84",
   "status": "proved",
   "theorems": [
    "C84_arrays",
    "C84_root",
    "C84_results",
    "C84_file",
    "C84_converted"
   ],
   "note": "Real results of files with one level, and of all first-level data sets of converted files; complex results are not covered. Division of shells is that of C65; sums in any order."
  },
  {
   "property": "C85",
   "status": "proved",
   "theorems": [
    "C85_parts",
    "C85_results",
    "C85_file",
    "C85_converted"
   ],
   "note": "Files with one level, and all first-level data sets of converted files. The sum of each part may be in any order. C85_parts justifies the part-by-part model."
  },
  {
   "property": "C86",
   "status": "proved",
   "theorems": [
    "C86_finishes",
    "C86_turns",
    "C86_same"
   ],
   "note": "For every text and object; as the code is (Python 3) reading raises AttributeError at once, with that repaired the loops end as well, and the outcome does not depend on the number of turns the model allows."
  }
 ]
}