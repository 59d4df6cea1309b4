{"id": "C01", "title": "Unformatted framing round trip", "statement": "Opening an unformatted (SIU) file made of physical records, each written as one length byte, the payload and a trailing byte (length byte 129 standing for a 128-byte payload), and reading physical records from it returns exactly the payloads, in order, with no byte lost, added or shared between records; reading past the last record raises instead of inventing data.", "quantifier": "every finite sequence of payloads of 0..128 bytes and every payload content, including bytes that look like lengths or names", "why_tests_cant": "the space of payload sequences is infinite and includes adversarial contents (payload bytes equal to length bytes, names, blanks); a test file fixes one sequence", "anchors": ["freesif/sequentialparser/sequentialfiles.py:UnformattedFile.__init__", "freesif/sequentialparser/sequentialfiles.py:UnformattedFile.read_stringrec"]}
{"id": "C02", "title": "Binary numbers are decoded exactly", "statement": "Each 4-byte group of an unformatted record is returned as the IEEE-754 single it encodes (sign, exponent, fraction; zeros, subnormals, infinities included), so a number written in single precision is read back unchanged.", "quantifier": "all 2^32 bit patterns (all finite, zero and infinite singles for the round trip)", "why_tests_cant": "there are four billion patterns and edge classes (subnormal, signed zero, infinity, NaN) that test files do not contain", "anchors": ["freesif/sequentialparser/sequentialfiles.py:UnformattedFile.tofloatrec", "freesif/sequentialparser/sequentialfiles.py:FormattedFile.tofloatrec"]}
{"id": "C03", "title": "Formatted integer fields are read back exactly", "statement": "A whole number of at most nine digits printed in the SESAM 16-column E notation is read back from a formatted (FEM/SIF) file as exactly that whole number, at any of the four positions of a line and independently of the other positions.", "quantifier": "every integer of absolute value below 10^9 and every field position and neighbouring content", "why_tests_cant": "a billion values and rounding of decimal to binary; tests check a few hundred numbers with tolerances", "anchors": ["freesif/sequentialparser/sequentialfiles.py:FormattedFile.tofloatrec", "freesif/sequentialparser/sequentialfiles.py:FormattedFile.read_floatrec"]}
{"id": "C04", "title": "Reading floats does not depend on how they are cut into continuation records", "statement": "Asking for n1, n2, ... floats in succession after a record header returns consecutive, non-overlapping slices of the record's continuation data, and the position afterwards is at the next record header when the data was consumed exactly, regardless of how the data was split over physical records (any split on unformatted files, four per line on formatted files) and of how the request was split into calls.", "quantifier": "all data sequences, all ways of cutting them into physical records, all partitions of the reading into calls", "why_tests_cant": "the combinations of record splits and call splits are unbounded; tests see one split per file", "anchors": ["freesif/sequentialparser/sequentialfiles.py:UnformattedFile.read_floats", "freesif/sequentialparser/sequentialfiles.py:FormattedFile.read_floats"]}
{"id": "C05", "title": "Reading a file always finishes", "statement": "Converting any file, well formed or corrupt, comes to an end: parsing either completes or raises an exception, it never loops forever on any content.", "quantifier": "every finite byte sequence as file content, formatted or unformatted, with or without an `only` filter", "why_tests_cant": "non-termination on some corrupt input cannot be excluded by running finitely many inputs", "anchors": ["freesif/sequentialparser/parsers.py:parse_file", "freesif/sequentialparser/parsers.py:general_parser", "freesif/sequentialparser/sequentialfiles.py:SequentialFile.skip_restofrecord"]}
{"id": "C06", "title": "Record types without a reader are passed over without disturbing the others", "statement": "A record of a type the library does not store is skipped as a whole: the next record returned is the one that follows it on the file, for both continuation layouts (blank-led lines and nfield-counted lines) and for name records, so data of supported records is unaffected by interspersed unsupported records.", "quantifier": "all names not handled by a reader, all numbers of continuation records, all following records", "why_tests_cant": "the set of record names and continuation layouts is unbounded; tests only cover names in the sample files", "anchors": ["freesif/sequentialparser/sequentialfiles.py:SequentialFile.skip_restofrecord", "freesif/sequentialparser/sequentialfiles.py:allowed_record_names_b", "freesif/sequentialparser/sequentialfiles.py:allowed_record_names_str", "freesif/sequentialparser/parsers.py:general_parser"]}
{"id": "C07", "title": "Counting records counts every record once", "statement": "get_recordcount on a file positioned at its first record returns, for every record name, exactly the number of records of that name on the file.", "quantifier": "all sequences of well-formed records", "why_tests_cant": "needs all record sequences; the function is not covered by tests at all", "anchors": ["freesif/sequentialparser/sequentialfiles.py:SequentialFile.get_recordcount"]}
{"id": "C08", "title": "Fixed-length records become table rows unchanged and in file order", "statement": "A run of records of a fixed-length type is stored as a table with one row per record, in file order, each column holding the value of the corresponding field (integers truncated, reals in single precision); missing trailing fields read as zero and surplus header fields are dropped.", "quantifier": "all fixed-length record types, all run lengths, all field values", "why_tests_cant": "run length and values are unbounded and there are dozens of record types; tests compare a few arrays", "anchors": ["freesif/sequentialparser/parsers.py:standard_record_reader", "freesif/sequentialparser/parsers.py:get_table", "freesif/sequentialparser/parsers.py:recdata"]}
{"id": "C09", "title": "Variable-length data is attributed to its own record", "statement": "For every stored row, slicing the companion array with the row's start and stop yields exactly the variable-length data of that record, the ranges of successive rows do not overlap and cover the array in order, and rows without data have an empty range.", "quantifier": "all sequences of records and all data lengths, including empty ones and several runs of the same record type on one file", "why_tests_cant": "depends on unbounded histories of appended records; an off-by-one in one range only shows for particular histories", "anchors": ["freesif/sequentialparser/parsers.py:recdata", "freesif/sequentialparser/parsers.py:vldata"]}
{"id": "C10", "title": "The in-memory batch size is unobservable", "statement": "The stored tables and arrays do not depend on the size of the temporary batch used while reading (100000 records): a run that fills the batch exactly, once or many times is stored like any other.", "quantifier": "all run lengths and all batch sizes of at least one", "why_tests_cant": "the boundary is at 100000 records of one type, no test file reaches it", "anchors": ["freesif/sequentialparser/parsers.py:recdata.add", "freesif/sequentialparser/parsers.py:recdata.write", "freesif/sequentialparser/parsers.py:vldata.write", "freesif/sequentialparser/parsers.py:tmp_arr_size"]}
{"id": "C11", "title": "Element definitions survive conversion", "statement": "Every element record is stored with its external number, internal number, type and exactly the node numbers given for it on the file (as many as its element type has), in order.", "quantifier": "all sequences of elements of the supported types with any node numbers", "why_tests_cant": "unbounded meshes; tests compare stored arrays for two small meshes", "anchors": ["freesif/sequentialparser/parsers.py:gelmnt1_reader", "freesif/sequentialparser/parsers.py:elem_types"]}
{"id": "C12", "title": "Set membership survives conversion", "statement": "Every set-member record is stored with its set number, kind and exactly the members listed on it.", "quantifier": "all numbers of set records and members, all ways the members are cut into physical records", "why_tests_cant": "member lists are unbounded and cross physical-record boundaries at arbitrary places", "anchors": ["freesif/sequentialparser/parsers.py:gsetmemb_reader"]}
{"id": "C13", "title": "Names and texts survive conversion", "statement": "Each name record (sets, load cases, materials, sections, ...) is stored with its identification number and the name text given on the file with surrounding blanks removed, and each date/text record with all its text lines.", "quantifier": "all names and texts, all numbers of text lines", "why_tests_cant": "truncation limits and blank handling need all lengths and contents; tests use short names", "anchors": ["freesif/sequentialparser/parsers.py:td_reader", "freesif/sequentialparser/parsers.py:text_reader"]}
{"id": "C14", "title": "Complex hydrodynamic values keep real and imaginary parts paired", "statement": "For every hydrodynamic response record flagged complex, component k of the stored value has the (2k-1)-th float of the record as real part and the 2k-th as imaginary part; a record flagged real is stored with its floats as real parts.", "quantifier": "all record values and both flags, for motion, excitation, second-order force, section force, fluid kinematics and panel pressure records", "why_tests_cant": "all values and flag combinations; test data contains only complex records", "anchors": ["freesif/sequentialparser/parsers.py:wcommon1_reader", "freesif/sequentialparser/parsers.py:W1SFORCE_reader", "freesif/sequentialparser/parsers.py:WFLUIDKN_reader", "freesif/sequentialparser/parsers.py:W1PANPRE_reader"]}
{"id": "C15", "title": "Result points keep their identity", "statement": "For an element result-point record, the grid code is decoded into its three dimensions, every existing point is stored with its number and coordinates in order, points marked absent take no coordinates, and the transformation matrices that follow are stored intact.", "quantifier": "all grid dimensions, all patterns of absent points, all coordinates and matrices", "why_tests_cant": "patterns of absent points are exponential in number; tests have none", "anchors": ["freesif/sequentialparser/parsers.py:rdpoints_reader"]}
{"id": "C16", "title": "Node results of every load case are stored completely", "statement": "For every node result record all result components present on the record are stored, so that real results have six values per node and complex results six complex values per node.", "quantifier": "all node result records, real and complex", "why_tests_cant": "needs all records and both flags; the tests only check the real case in detail", "anchors": ["freesif/sequentialparser/parsers.py:rvnodres_reader", "freesif/data/strucdata.py:FirstLevelData.get_noderesults"]}
{"id": "C17", "title": "Wave directions, frequencies and times of a result reference belong to that reference", "statement": "For every hydrodynamic result reference the stored direction, frequency and time ranges contain the data listed on that reference and nothing else; a kind that is not listed has an empty range.", "quantifier": "all sequences of result references with any subset and order of the three kinds", "why_tests_cant": "depends on the history of previous references; sample files always list the same kinds", "anchors": ["freesif/sequentialparser/parsers.py:wdresref_reader", "freesif/sequentialparser/parsers.py:vldata.add"]}
{"id": "C18", "title": "Optional section fields are recognised", "statement": "For cross-section records with optional trailing fields, a record without them reads them as zero and leaves the following record untouched, and a record with them stores them.", "quantifier": "all section record types, with and without the optional fields, followed by any record", "why_tests_cant": "the decision depends on the following record's name; tests cover few successors", "anchors": ["freesif/sequentialparser/parsers.py:reader_optionalfields", "freesif/sequentialparser/sequentialfiles.py:UnformattedFile.at_headerrec", "freesif/sequentialparser/sequentialfiles.py:FormattedFile.at_headerrec"]}
{"id": "C19", "title": "Restricting conversion with `only` keeps the selected records intact", "statement": "Converting with a list of record names stores for the listed types exactly what a full conversion stores and nothing for other types (provided the listed types do not need data of unlisted ones).", "quantifier": "all files and all name lists", "why_tests_cant": "all subsets of record names over all files", "anchors": ["freesif/sequentialparser/parsers.py:parse_file", "freesif/sequentialparser/sif2hdf5.py:sif2hdf5"]}
{"id": "C20", "title": "Conversions are independent of earlier conversions in the same session", "statement": "Converting a file gives the same stored data whether or not other files were converted before in the same process.", "quantifier": "all histories of earlier conversions, including failed ones", "why_tests_cant": "histories are unbounded; module-level state leaks only show for particular pairs of files", "anchors": ["freesif/sequentialparser/parsers.py:reset", "freesif/sequentialparser/parsers.py:elem_data", "freesif/sequentialparser/sif2hdf5.py:sif2hdf5"]}
{"id": "C21", "title": "Each stored data set is labelled with its record list, type, level and superelement", "statement": "After a file is read its group carries the names of the record types read, each once in order of first appearance, the data type (structural for T, L, R; hydrodynamic for G), the level (top, intermediate, first) implied by the hierarchy, and the superelement number.", "quantifier": "all record sequences, file types and hierarchy positions", "why_tests_cant": "the decision table over file type, hierarchy and level combinations with all record sequences is not enumerated by tests", "anchors": ["freesif/sequentialparser/parsers.py:parse_file", "freesif/sequentialparser/parsers.py:remove_dups_preseve_order"]}
{"id": "C22", "title": "File names are recognised by the SESAM naming rule", "statement": "A name made of an optional prefix of word characters and dashes, a type letter R, T, G or L, a superelement number without leading zero, an optional H and hierarchy number, a dot and an extension SIF, SIU or FEM is accepted in either letter case and split into the right prefix, letter, number and extension; a SIN file is rejected; names without such structure are rejected.", "quantifier": "all file names", "why_tests_cant": "infinitely many names; prefixes may themselves contain letters and digits that look like the type part", "anchors": ["freesif/data/helpers.py:parse_sifname", "freesif/sequentialparser/sif2hdf5.py:sif2hdf5"]}
{"id": "C23", "title": "Lower-level superelement files are found from the hierarchy", "statement": "For a results file every first-level superelement occurrence in the hierarchy below the top, and for an input file every superelement type below the top once, has its file read if it exists, with the name built from the top file's prefix; missing files are skipped and nothing else is read.", "quantifier": "all hierarchies and all sets of files present", "why_tests_cant": "hierarchies are unbounded trees and any subset of files may be missing; tests have one assembly", "anchors": ["freesif/sequentialparser/sif2hdf5.py:sif2hdf5", "freesif/sequentialparser/parsers.py:set_current_ihref"]}
{"id": "C24", "title": "Appending keeps what is already stored", "statement": "Converting with append adds the new groups and leaves every node already in the file unchanged; if a group of that name already exists the conversion raises instead of merging or overwriting; without append the file holds exactly the new data.", "quantifier": "all previous file contents and all new data", "why_tests_cant": "all pairs of contents; tests only append distinct names once", "anchors": ["freesif/sequentialparser/sif2hdf5.py:sif2hdf5", "freesif/sequentialparser/parsers.py:get_table"]}
{"id": "C25", "title": "A converted data set is found under its file name", "statement": "Opening a file directly returns the data set read from that file: the stored group name and the name looked up agree.", "quantifier": "all file names and contents", "why_tests_cant": "the stored name comes from the content, the looked-up one from the file name; tests only have files where they agree", "anchors": ["freesif/data/file.py:open_sif", "freesif/sequentialparser/parsers.py:get_path", "freesif/data/helpers.py:parse_sifname"]}
{"id": "C26", "title": "Node coordinates and element connectivity fit together", "statement": "For every choice of sets, kind and disconnected, the node array and the element arrays returned for the same arguments fit: every connectivity entry is a valid index into the node array, and the coordinates it selects are those of the element's node on the file, in the element's own node order.", "quantifier": "all meshes, all set selections, both kinds or none, connected and disconnected", "why_tests_cant": "all meshes times all argument combinations; tests check shapes and a few arrays", "anchors": ["freesif/data/strucdata.py:FirstLevelData.get_nodes", "freesif/data/strucdata.py:FirstLevelData.get_elements", "freesif/data/strucdata.py:StrucData._get_nodeindices", "freesif/data/strucdata.py:StrucData._get_connectivity", "freesif/data/strucdata.py:StrucData._update_connectivity"]}
{"id": "C27", "title": "Set selection means union of members", "statement": "Selecting by sets returns each element belonging to at least one of the named sets exactly once, in increasing number order, merging the records a set is spread over; an unknown set name raises.", "quantifier": "all set definitions, overlapping or not, and all name sequences with repetitions", "why_tests_cant": "all overlaps and splits of sets; tests use two sets", "anchors": ["freesif/data/strucdata.py:StrucData._get_setmember_indices", "freesif/data/helpers.py:getrow"]}
{"id": "C28", "title": "Kind selection means exactly the beam or shell elements", "statement": "Selecting a kind returns exactly the selected elements whose type is a beam type (15, 23) or a shell type (24, 25, 26, 28), in order; with sets and kind together the intersection is returned; any other kind raises.", "quantifier": "all meshes with any mixture of element types and any sets", "why_tests_cant": "all mixtures and intersections", "anchors": ["freesif/data/strucdata.py:StrucData._get_elementkind_indices", "freesif/data/strucdata.py:StrucData._get_elementindices"]}
{"id": "C29", "title": "Offsets delimit elements", "statement": "The offsets returned with the connectivity are the running totals of the element node counts, have one entry per element, end at the length of the connectivity, and the element types are listed in the same order.", "quantifier": "all meshes and selections", "why_tests_cant": "unbounded meshes and selections", "anchors": ["freesif/data/sifdata.py:SifData._get_varlendata", "freesif/data/strucdata.py:FirstLevelData.get_elements"]}
{"id": "C30", "title": "Number arrays are aligned with data arrays", "statement": "The i-th node number returned for some selection is the number of the i-th node whose coordinates are returned for that selection, and likewise for element numbers and elements, external and internal.", "quantifier": "all meshes, selections and both numberings", "why_tests_cant": "alignment must hold for every selection; tests check one or two", "anchors": ["freesif/data/strucdata.py:FirstLevelData.get_nodenumbers", "freesif/data/strucdata.py:FirstLevelData.get_elementnumbers"]}
{"id": "C31", "title": "Node results are aligned with nodes and load cases", "statement": "For real results given per load case in node order, entry (c, i) of the returned node results is the six-component result of the c-th selected load case at the i-th selected node, also when nodes are repeated per element; mixing real and complex load cases raises.", "quantifier": "all meshes, selections, load case selections and result values", "why_tests_cant": "alignment over all selections and load case subsets cannot be sampled", "anchors": ["freesif/data/strucdata.py:FirstLevelData.get_noderesults", "freesif/data/strucdata.py:StrucData._get_resrefs", "freesif/data/strucdata.py:StrucData._check_complex_and_get_flag"]}
{"id": "C32", "title": "Superelement transformation is the composition along the hierarchy", "statement": "The transformation returned for a first-level superelement and a target level is the product of the hierarchy's matrices from that superelement up to the level, in order; level 1 is the identity; a level above the top or below one raises; and transforming node coordinates with it equals transforming them step by step.", "quantifier": "all hierarchies of any depth and all matrices", "why_tests_cant": "unbounded depth; tests have depth three", "anchors": ["freesif/data/strucdata.py:TopLevelData.get_transformation", "freesif/data/strucdata.py:FirstLevelData.get_nodes"]}
{"id": "C33", "title": "Subordinate data sets know their top level", "statement": "For a superelement inside a converted hierarchy, asking for coordinates in the top system or at a hierarchy level uses the hierarchy's transformation.", "quantifier": "all hierarchies and levels", "why_tests_cant": "needs all hierarchies and both transformation sources; the tests use results files only", "anchors": ["freesif/data/strucdata.py:FirstLevelData.__init__", "freesif/data/strucdata.py:StrucData.__init__", "freesif/data/strucdata.py:FirstLevelData.get_nodes"]}
{"id": "C34", "title": "Section properties and thicknesses belong to the element", "statement": "The i-th entry of the returned beam section properties (shell thicknesses) is the property record whose geometry number is referenced by the i-th selected beam (shell) element.", "quantifier": "all meshes, property tables and set selections", "why_tests_cant": "all property tables and selections; tests compare a single mesh", "anchors": ["freesif/data/strucdata.py:FirstLevelData.get_section_properties", "freesif/data/strucdata.py:FirstLevelData.get_shell_thicknesses"]}
{"id": "C35", "title": "Shell and beam results at nodes are exact for (bi)linear fields", "statement": "Extrapolating result-point values to the nodes reproduces every field that is linear through the thickness and bilinear (quadrilaterals), linear (triangles) or linear (curved beams) in the plane, and first-order elements return the values at their node result points.", "quantifier": "all element result values, i.e. all linear/bilinear stress fields", "why_tests_cant": "a real-valued identity for all coefficient values", "anchors": ["freesif/data/strucdata.py:FirstLevelData._process_eltyp15", "freesif/data/strucdata.py:FirstLevelData._process_eltyp23", "freesif/data/strucdata.py:FirstLevelData._process_eltyp24", "freesif/data/strucdata.py:FirstLevelData._process_eltyp25", "freesif/data/strucdata.py:FirstLevelData._process_eltyp26", "freesif/data/strucdata.py:FirstLevelData._process_eltyp28", "freesif/data/strucdata.py:FirstLevelData._extrapolate_to_surface"]}
{"id": "C36", "title": "Decomposed stress recombines to the surface stresses", "statement": "At every node the membrane part minus and plus the bending part of the decomposed stress give the lower and upper surface stress of the same element.", "quantifier": "all stress values and all shell types", "why_tests_cant": "a real-valued identity for all values", "anchors": ["freesif/data/strucdata.py:FirstLevelData._decompose_stresses_thin", "freesif/data/strucdata.py:FirstLevelData._decompose_stresses_thick"]}
{"id": "C37", "title": "Directions and frequencies are listed once in file order", "statement": "The directions and frequencies reported for hydrodynamic data are the distinct values on the file, each once, in order of first appearance, and time steps the distinct values in increasing order.", "quantifier": "all sequences of result references", "why_tests_cant": "all sequences with repetitions in any order", "anchors": ["freesif/data/hydrodata.py:HydroData.__init__"]}
{"id": "C38", "title": "Response arrays are indexed by component, direction and frequency", "statement": "Entry (dof, i, j) of motion, excitation and drift responses is component dof of the record stored for the i-th direction and j-th frequency of the selected body, and a data set with the wrong number of records raises instead of being misaligned; section forces, fluid kinematics and panel pressures add the section, point or panel axis in the documented place.", "quantifier": "all numbers of directions, frequencies, sections, points and panels, all values, all bodies", "why_tests_cant": "index permutations must be right for every size; tests only check shapes or one set of numbers", "anchors": ["freesif/data/hydrodata.py:HydroData.get_motion_raos", "freesif/data/hydrodata.py:HydroData.get_excitationforce_raos", "freesif/data/hydrodata.py:HydroData.get_sectionforce_raos", "freesif/data/hydrodata.py:HydroData.get_fluidkinematics_raos", "freesif/data/hydrodata.py:HydroData.get_panel_pressures", "freesif/data/hydrodata.py:HydroData.get_meandrift", "freesif/data/hydrodata.py:HydroData.get_horiz_meandrift"]}
{"id": "C39", "title": "Matrices are those of the requested type and body pair", "statement": "A frequency-independent matrix is the 6x6 matrix stored for the body pair and type; a frequency-dependent one has entry (i, j, f) equal to entry (i, j) of the f-th stored matrix of that pair and type; any other type code raises.", "quantifier": "all stored matrix tables, body pairs and type codes", "why_tests_cant": "all tables; tests have a single body", "anchors": ["freesif/data/hydrodata.py:HydroData.get_matrix", "freesif/data/hydrodata.py:HydroData._get_ibcond"]}
{"id": "C40", "title": "Closing is complete, idempotent and final", "statement": "After a file or any of its data sets is closed, the file and all its data sets are closed, every accessor raises the closed-file error, closing again does nothing, and other open files are unaffected.", "quantifier": "all sequences of open, access and close operations on any number of files and data sets", "why_tests_cant": "operation histories are unbounded", "anchors": ["freesif/data/file.py:File", "freesif/data/sifdata.py:SifData.close", "freesif/data/sifdata.py:SifData._check_isopen"]}
{"id": "C41", "title": "Closing all files closes all files", "statement": "Closing all files leaves no file open, whatever number of files was open.", "quantifier": "all sets of open files", "why_tests_cant": "failure depends on the number of open files; untested", "anchors": ["freesif/data/file.py:close_all_files"]}
{"id": "C42", "title": "VTU output is well nested for every accepted call sequence", "statement": "Whatever sequence of writer calls is made without an error, the file produced up to the final close is a properly nested XML element structure with exactly one root; calls in the wrong state raise the writer's error.", "quantifier": "all call sequences", "why_tests_cant": "call histories are unbounded", "anchors": ["freesif/utils/writers.py:VtuWriter"]}
{"id": "C43", "title": "VTU array payloads carry the array", "statement": "Every data array is written as base64 text which decodes to an 8-byte little-endian byte count followed by exactly the array's bytes.", "quantifier": "all array contents and sizes", "why_tests_cant": "all byte strings of all lengths modulo 3", "anchors": ["freesif/utils/writers.py:VtuWriter._write_array"]}
{"id": "C44", "title": "VTK reordering keeps every node and every result of its element", "statement": "Reordering connectivity and element-node results for VTK permutes entries within each element only, loses none, and for quadratic elements puts corner nodes before mid-side nodes.", "quantifier": "all element lists and data", "why_tests_cant": "all mixtures of element types", "anchors": ["freesif/utils/writers.py:_reorder_data", "freesif/utils/writers.py:sesam2vtk_connectivity", "freesif/utils/writers.py:sesam2vtk_elemresults"]}
{"id": "C45", "title": "Writing the same mesh twice gives the same output", "statement": "Calling new_piece with the same cell arrays a second time writes the same piece as the first time; the caller's arrays are not changed in a way that alters later output.", "quantifier": "all meshes and repetition counts", "why_tests_cant": "depends on element types and history; in-place effects are invisible in single-call tests", "anchors": ["freesif/utils/writers.py:VtuWriter.new_piece", "freesif/utils/writers.py:_reorder_connectivity_vtk"]}
{"id": "C46", "title": "Signed absolute maximum", "statement": "absmax returns an element of the data whose absolute value is the largest, along the chosen axis or over all.", "quantifier": "all non-empty arrays of finite reals", "why_tests_cant": "all arrays", "anchors": ["freesif/calc/general.py:absmax"]}
{"id": "C47", "title": "Plane principal and von Mises stresses", "statement": "The two plane principal stresses are the eigenvalues of the plane stress tensor, larger first, and the von Mises stress squared equals P1^2 - P1 P2 + P2^2, is never negative and vanishes only for zero stress.", "quantifier": "all real stress triples", "why_tests_cant": "real-valued identities for all inputs", "anchors": ["freesif/calc/principal.py:principal2d", "freesif/calc/vonmises.py:vonmises2d"]}
{"id": "C48", "title": "Thick shell principal stresses", "statement": "Given the three eigenvalues of the stress tensor in any order, the two returned values are the two of largest absolute value, larger first, and when the transverse shears vanish they are the plane principal stresses.", "quantifier": "all eigenvalue triples and orders", "why_tests_cant": "real-valued for all inputs and orders", "anchors": ["freesif/calc/principal.py:principal_thickshell"]}
{"id": "C49", "title": "Element-node result lookup", "statement": "For a pair (element number, node number) where the node belongs to the element, the index returned points to that node's entry of that element in disconnected results.", "quantifier": "all meshes without repeated element numbers and all pairs", "why_tests_cant": "all meshes and pairs; untested", "anchors": ["freesif/calc/general.py:find_elemres_indices"]}
{"id": "C50", "title": "Records written to a formatted file read back", "statement": "Writing a record to a formatted file and reading it again yields the same name and numbers.", "quantifier": "all records", "why_tests_cant": "all record lengths and values; the writer is untested", "anchors": ["freesif/sequentialparser/sequentialfiles.py:FormattedFile.write_record", "freesif/sequentialparser/sequentialfiles.py:FormattedFile._write_line", "freesif/sequentialparser/sequentialfiles.py:FormattedFile.write_floats"]}
{"id": "C51", "title": "Hierarchy records survive conversion", "statement": "Every hierarchy record is stored with its eight fields and exactly its list of sub-superelement references, and the file's first hierarchy record determines the superelement number used for naming the group.", "quantifier": "all hierarchies", "why_tests_cant": "unbounded hierarchies", "anchors": ["freesif/sequentialparser/parsers.py:hierarch_reader", "freesif/sequentialparser/parsers.py:get_path"]}
{"id": "C52", "title": "Result case selection", "statement": "Selecting result cases returns exactly the references of the given run whose external case number was asked for (all when none is given), in file order, and result case names are returned for exactly the requested numbers.", "quantifier": "all result reference tables and all selections", "why_tests_cant": "all tables and selections", "anchors": ["freesif/data/strucdata.py:StrucData._get_resrefs", "freesif/data/strucdata.py:FirstLevelData.get_resultcase_names"]}
{"id": "C53", "title": "Element results are aligned with the selected elements and cases", "statement": "For every selection and set of cases get_elementresults returns, case by case in the order of the result references and element by element in the order of get_elements, the processed numbers of the record of that element in that case; the axis of nodes has one entry for each node of the disconnected connectivity; asking for real and complex cases together raises an error.", "quantifier": "all meshes, selections, cases, result kinds and values", "why_tests_cant": "all combinations of selections, cases and element types; the test compares one sum of one file", "anchors": ["freesif/data/strucdata.py:FirstLevelData.get_elementresults", "freesif/data/strucdata.py:FirstLevelData._process_eltyp15", "freesif/data/strucdata.py:FirstLevelData._get_resrefs"]}
{"id": "C54", "title": "Decimal fields are read as the nearest double", "statement": "A 16-column field of a formatted file is accepted exactly if it is a numeral (optional white space, sign, digits with optional point, optional exponent; or inf/nan), and its value is the IEEE-754 double nearest to the decimal number written, the even one of two that are as near, infinite beyond the largest; any other text raises ValueError.", "quantifier": "all texts, all decimal numbers of any length and exponent, all positions on a line", "why_tests_cant": "correct rounding is decided by numbers arbitrarily close to the middle of two doubles and there are unboundedly many digits and exponents; tests compare with tolerances", "anchors": ["freesif/sequentialparser/sequentialfiles.py:FormattedFile.tofloatrec", "freesif/sequentialparser/sequentialfiles.py:FormattedFile.read_floatrec", "freesif/sequentialparser/sequentialfiles.py:FormattedFile.read_headerrec"]}
{"id": "C55", "title": "Opening a structural file gives back the structure written in its records", "statement": "For every complete formatted or unformatted SESAM file of a first-level superelement open_sif returns a first-level object whose getters give exactly what the records of the file say: node coordinates and numbers, connectivity and element numbers of any selection, section properties and shell thicknesses, names of result cases, nodal and element results, aligned with the selection and the cases asked for.", "quantifier": "all directories, file names, record sequences, meshes, sets, selections, cases and batch sizes", "why_tests_cant": "the claim spans reading, storing and all getters for every file; the tests open three fixed files and compare sums", "anchors": ["freesif/data/file.py:open_sif", "freesif/sequentialparser/sif2hdf5.py:sif2hdf5", "freesif/data/strucdata.py:FirstLevelData.get_nodes", "freesif/data/strucdata.py:FirstLevelData.get_elements", "freesif/data/strucdata.py:FirstLevelData.get_noderesults", "freesif/data/strucdata.py:FirstLevelData.get_elementresults"]}
{"id": "C56", "title": "Dimensions and factors of cross sections survive conversion", "statement": "Every real number of a cross-section record (heights, widths, thicknesses, radii, shear factors sfy and sfz) is stored with its fraction, in single precision.", "quantifier": "all cross-section record types, all values, all files", "why_tests_cant": "no test looks at the cross-section tables; values with a fraction in each column of eleven record types would be needed", "anchors": ["freesif/sequentialparser/parsers.py:GBOX_rec", "freesif/sequentialparser/parsers.py:GCHANR_rec", "freesif/sequentialparser/parsers.py:GPIPE_rec", "freesif/sequentialparser/parsers.py:reader_optionalfields"]}
{"id": "C57", "title": "Opening a hydrodynamic file gives back the results written in its records", "statement": "For every complete formatted or unformatted SESAM file of hydrodynamic results open_sif returns a hydrodynamic object whose getters give exactly what the records of the file say: directions and frequencies, or time steps; motions, excitation and drift forces, section forces, pressures, elevations and velocities at fluid points, panel pressures and the matrices, each at the position of its component, direction and frequency.", "quantifier": "all directories, file names, record sequences, grids of directions and frequencies, bodies, sections, points, panels and batch sizes", "why_tests_cant": "the claim spans reading, storing and all getters for every file; the tests open one fixed file and compare sums", "anchors": ["freesif/data/file.py:open_sif", "freesif/sequentialparser/sif2hdf5.py:sif2hdf5", "freesif/data/hydrodata.py:HydroData.__init__", "freesif/data/hydrodata.py:HydroData.get_motion_raos", "freesif/data/hydrodata.py:HydroData.get_fluidkinematics_raos", "freesif/data/hydrodata.py:HydroData.get_panel_pressures"]}
{"id": "C58", "title": "Sections, points, body data and matrices of a hydrodynamic file", "statement": "For every hydrodynamic file get_sections lists number, type and the three points of each section in file order; get_points gives the coordinates of the points; get_bodyproperties gives the fifteen named values of the first WBODY record of the body's condition; each named matrix getter (mass, added mass, damping, restoring) returns the matrices of its own type for the two bodies; a missing body raises ConditionError and missing records NoSuchRecordError.", "quantifier": "all directories, files, record sequences and bodies", "why_tests_cant": "tests compare shapes and sums for one file with one body; they cannot tell a swapped field name or matrix type in other files", "anchors": ["freesif/data/hydrodata.py:HydroData.get_sections", "freesif/data/hydrodata.py:HydroData.get_points", "freesif/data/hydrodata.py:HydroData.get_bodyproperties", "freesif/data/hydrodata.py:HydroData.get_addedmass"]}
{"id": "C59", "title": "Panel identifiers name the panel pressures", "statement": "get_pressure_panel_ids lists every pair of a panel number and a symmetry part of the body, in ascending order with the symmetry part changing last, and the pair in place t*len(panels)+k names the pressures at [k, t] of get_panel_pressures.", "quantifier": "all hydrodynamic files, bodies, panel numbers and symmetry parts", "why_tests_cant": "the one test file has its panels in ascending order; the identifiers are sorted while the pressures keep the order of the file", "anchors": ["freesif/data/hydrodata.py:HydroData.get_pressure_panel_ids", "freesif/data/hydrodata.py:HydroData.get_panel_pressures"]}
{"id": "C60", "title": "Every data set of a converted assembly is found and gives back its own records", "statement": "A top file converted together with the files of its superelements and opened lists the top under its name and, below it in alphabetical order, exactly one key for each superelement whose file was present. The object under each key has the class of its level, the type and occurrence of its place, and its getters return what the records of that superelement's own file say.", "quantifier": "all assemblies of results, model and loads files, any number of superelements, missing files, prefixes and output names", "why_tests_cant": "the test assembly has few superelements, and the tests look at single values of one of them; mixing data of two occurrences of the same superelement would not be seen", "anchors": ["freesif/data/file.py:File.__init__", "freesif/sequentialparser/sif2hdf5.py:sif2hdf5", "freesif/data/sifdata.py:SifData"]}
{"id": "C61", "title": "A file lists its data sets", "statement": "As long as a file is open, its keys are each group in alphabetical order followed by the groups below it; values and items come in the same order; every key leads to the object of its group and any other name to KeyError, None or False. Iterating over the file gives the data objects. str of the file has one line for each data set in alphabetical order of keys, repr likewise; those of a closed file say so.", "quantifier": "all files, all histories of opening, using and closing, all keys", "why_tests_cant": "the tests look up a few known keys; iteration and repr are not called, and both fail", "anchors": ["freesif/data/file.py:File.__getitem__", "freesif/data/file.py:File.keys", "freesif/data/file.py:File.__iter__", "freesif/data/file.py:File.__str__", "freesif/data/file.py:File.__repr__", "freesif/data/sifdata.py:SifData.__str__"]}
{"id": "C62", "title": "The records of each data set are counted", "statement": "_record_info of every data set of a converted file or assembly lists exactly the types of records stored from that file, in alphabetical order, each with the number of its records.", "quantifier": "all files and assemblies, all numbers and kinds of records", "why_tests_cant": "not called by any test; a count depends on every record of the file having been stored once", "anchors": ["freesif/data/sifdata.py:SifData._record_info", "freesif/sequentialparser/parsers.py:parse_file"]}
{"id": "C63", "title": "What real files contain can be worked out, and conversion keeps it", "statement": "A calculation that uses none of the reading functions takes a file, or the files of an assembly, apart into records and gathers nodes, elements, sets, properties, references and results from them. Whenever it succeeds, conversion and opening succeed, and the data sets' getters return what was gathered.", "quantifier": "all files and directories on which the calculation succeeds; it does on every test file of the repository except those with complex node results", "why_tests_cant": "tests compare a few arrays of a few files with stored copies of earlier output; here any file can be checked against an independent reading of its bytes", "anchors": ["freesif/sequentialparser/parsers.py:parse_file", "freesif/sequentialparser/sif2hdf5.py:sif2hdf5", "freesif/data/strucdata.py:FirstLevelData.get_coords"]}
{"id": "C64", "title": "Several files converted into one HDF5 file keep their own data", "statement": "A list of files (each alone or with the files of its superelements) converted into one HDF5 file, or appended to it later, gives a file whose keys are exactly the data set names in alphabetical order, each followed by those of its superelements; every data set has the records of its own file, and its getters return what that file says. Without an output name each file gives a file of its own; files of other names are not touched.", "quantifier": "all lists of well-formed files with different data set names (or different default output names), hydrodynamic ones with the records WDRESREF and WGLOBDEF, any initial module state and any other HDF5 files", "why_tests_cant": "the parser keeps module-level state between conversions, and groups of earlier files could be changed by any later one; tests convert a few files into one file and look at some arrays", "anchors": ["freesif/sequentialparser/sif2hdf5.py:sif2hdf5", "freesif/data/file.py:File.__init__"]}
{"id": "C65", "title": "Element results at the nodes are those of the field of the record", "statement": "For each case asked for and each element selected, the results returned at the nodes of the element are the values there of the field of its element type (linear along beams, bilinear or linear in the plane and linear through the thickness of thick shells, corner values of thin shells) that has the numbers of the record at the result points; every record of the right length has such a field and the result does not depend on which. Decomposed stresses are the mid-thickness part and the difference to the upper surface.", "quantifier": "all numbers, all records, all files with such results, both kinds of stresses and beam forces, all cases and sets", "why_tests_cant": "the tests compare with stored results for one file; the matrices and the order of nodes are checked for those elements only", "anchors": ["freesif/data/strucdata.py:FirstLevelData.get_elementresults", "freesif/data/strucdata.py:FirstLevelData._process_element_results", "freesif/data/strucdata.py:FirstLevelData._process_eltyp28", "freesif/data/strucdata.py:FirstLevelData._process_eltyp26", "freesif/data/strucdata.py:FirstLevelData._process_eltyp24", "freesif/data/strucdata.py:FirstLevelData._process_eltyp23"]}
{"id": "C66", "title": "The VTK file written from a data set shows the mesh and the results of the Sesam file", "statement": "When nodes, elements and node results (real, one result case each) of a structural superelement are fetched with the same selection and given to VtuWriter as in the example script, the bytes written are one well-formed XML document of an unstructured grid whose points have the coordinates of the selected nodes in single precision, whose cells are the selected elements with the right cell type and their nodes by identity in VTK's order, and whose point data have, at each point, the values of the file for that node and case (all six components or the first three).", "quantifier": "all directories with such Sesam files, all selections, connected and disconnected nodes, any number of fields, any integer width of connectivity and offsets", "why_tests_cant": "the one test of VtuWriter checks only that a file exists afterwards; no run on one model checks node identities and byte layout for other element mixes", "anchors": ["examples/struc_example.py", "freesif/utils/writers.py:VtuWriter", "freesif/data/strucdata.py:FirstLevelData.get_nodes", "freesif/data/strucdata.py:FirstLevelData.get_elements", "freesif/data/strucdata.py:FirstLevelData.get_noderesults"]}
{"id": "C67", "title": "The VTK file of a disconnected mesh shows the element results at the nodes of each element", "statement": "When nodes and elements of a structural superelement are fetched disconnected for a kind of elements and sets, and beam forces, decomposed stresses or one surface of the general stresses of one result case at the nodes are fetched for the same elements and given to VtuWriter as point data, the bytes written are one well-formed XML document of an unstructured grid in which every element has consecutive points of its own at the coordinates of its nodes, the cells use them in VTK's order, and the data of the point of the k-th node of an element are the values at that node of the field that has the numbers of that element's record at the result points.", "quantifier": "all directories with such Sesam files, all sets, beams with two and three nodes, shells with three, four and eight nodes, any number of fields, any arithmetic with a root of three, single and double precision", "why_tests_cant": "no test writes element results; the correspondence of three arrays fetched by three calls and of their order in the file concerns every mix of elements, and a wrong order still gives a valid file", "anchors": ["freesif/utils/writers.py:VtuWriter", "freesif/data/strucdata.py:FirstLevelData.get_elementresults", "freesif/data/strucdata.py:FirstLevelData.get_elements", "freesif/data/strucdata.py:FirstLevelData.get_nodes"]}
{"id": "C68", "title": "Plane principal and von Mises stresses are accurate to a few units in the last place", "statement": "Calculated on single or double precision arrays, with each operation rounded to nearest, the von Mises stress of a point differs from the exact one by at most 5 half-units in the last place relatively (5 * 2^-24 or 5 * 2^-53), also where terms cancel; each principal stress differs from the exact one by at most 5 such units relative to the larger of the two in absolute value; and the first is never less than the second.", "quantifier": "all arrays whose stress components are zero or between 2^-39 and 2^60 (single) or 2^-450 and 2^500 (double) in absolute value, all ways of breaking ties", "why_tests_cant": "rounding errors depend on all bits of the three inputs; the worst cases are not known and a tolerance in a test is not a bound", "anchors": ["freesif/calc/principal.py:principal2d", "freesif/calc/vonmises.py:vonmises2d"]}
{"id": "C69", "title": "Element results at nodes are accurate in floating-point arithmetic", "statement": "With every operation rounded to nearest, whatever the order in which np.dot sums and whichever promotion rule of NumPy applies between double scalars and single precision arrays, the real element results of a data set at nodes have the shape and order of C65, and each number differs from that of the field by at most 37 * (2^-24 M + 2^-149) for six- and eight-node shells, by at most 18 * (2^-53 M + 2^-1074) for three-node beams and decomposed stresses of four- and three-node shells, and not at all for the others, where M bounds the numbers of the records in absolute value.", "quantifier": "all data sets, selections, result cases and stored numbers up to 2^100 in absolute value; all ways of breaking ties, orders of summation, fused or separate products", "why_tests_cant": "rounding errors depend on all bits of up to 40 numbers and on the order in which the linear algebra library sums, which differs between machines", "anchors": ["freesif/data/strucdata.py:FirstLevelData.get_elementresults", "freesif/data/strucdata.py:FirstLevelData._extrapolate_to_surface", "freesif/data/strucdata.py:FirstLevelData._process_eltyp28"]}
{"id": "C70", "title": "A VTF model written and read back is the same", "statement": "A VtfData object with nodes, elements, results at element nodes and scalars, written to a file and read into a new object, gives the same model: the same blocks with the same numbers, names and descriptions, nodes with the same numbers and coordinates equal to five decimals, elements of the same types with the same nodes and numbers, the same results and scalars.", "quantifier": "all models: any number of blocks, elements, types, values; all names and descriptions in one line without double blanks", "why_tests_cant": "the format is read line by line with state carried between blocks; which combinations of blocks, orders and widths survive cannot be listed by examples", "anchors": ["freesif/utils/vtfdata.py:VtfData.write", "freesif/utils/vtfdata.py:VtfData.read", "freesif/utils/vtfdata.py:VtfData.__init__"]}
{"id": "C71", "title": "Elements added to a VTF model are grouped by type, each once, with its nodes and number", "statement": "add_elements makes one block whose types are those that occur, in increasing order of the Sesam type; under each type are the elements of that type in the order given, with node numbers instead of positions (position plus one without numbers), corners first for eight-node quadrilaterals, and the element numbers in the same order; nothing else of the model changes.", "quantifier": "all lists of elements of the six types, all node tables, any model", "why_tests_cant": "elements of several types interleave arbitrarily; offsets, types and numbers are three parallel arrays", "anchors": ["freesif/utils/vtfdata.py:VtfData.add_elements"]}
{"id": "C72", "title": "A block added to a VTF model without a number gets one that is free", "statement": "When nodes, elements, results or scalars are added without giving a number, the new block gets a number no block of its kind has, and the blocks there already are kept.", "quantifier": "all models, however built", "why_tests_cant": "collisions depend on which numbers were given explicitly before", "anchors": ["freesif/utils/vtfdata.py:VtfData._get_new_id", "freesif/utils/vtfdata.py:VtfData.add_nodes", "freesif/utils/vtfdata.py:VtfData.add_scalar", "freesif/utils/vtfdata.py:VtfData.add_element_scalar_results"]}
{"id": "C73", "title": "Paths: a file is the same file by whatever path it is named", "statement": "The files of superelements are looked for in the directory of the file itself (links followed), files in other directories do not matter; a file opened by any path gives its data set; a converted file is opened again by the path given back, from any current directory; files of different directories get different HDF5 files.", "quantifier": "all file systems, current directories, paths (with ., .., double slashes and symbolic links) and well-formed assemblies", "why_tests_cant": "tests use one directory and plain paths; what another directory holds, or how a path is spelled, is never varied", "anchors": ["freesif/sequentialparser/sif2hdf5.py:sif2hdf5", "freesif/data/file.py:open_sif", "freesif/data/file.py:File.__init__", "freesif/data/helpers.py:parse_sifname"]}
{"id": "C74", "title": "HDF5 files in use are those opened and not closed, whatever was called before", "statement": "In a program that converts, opens and closes files in any order, the HDF5 files open are those given to the program and not closed since; one in use keeps its contents whatever is called; a call does not fail because of earlier calls that failed, or because a file of the same name in another directory is in use.", "quantifier": "all sequences of calls of sif2hdf5, open_sif, open_hdf5, close and close_all_files, with files changing in between", "why_tests_cant": "it is about all histories; tests open one file at a time and never continue after an exception", "anchors": ["freesif/sequentialparser/sif2hdf5.py:sif2hdf5", "freesif/data/file.py:open_sif", "freesif/data/file.py:open_hdf5", "freesif/data/file.py:File.close"]}
{"id": "C75", "title": "A conversion that fails leaves what was stored, and what was read before the failure", "statement": "When sif2hdf5 raises an exception, whatever the files hold and wherever reading stops, all nodes stored before are as they were except for attributes of groups named by prefix and letter, and only nodes of such names are new; runs of records before the place of failure and the files read before are in their tables; other assemblies can be converted into the same HDF5 file afterwards; the HDF5 file can be opened and the conversion repeated.", "quantifier": "all byte sequences as files, all directories, prefixes, record selections, module states and contents of the HDF5 file", "why_tests_cant": "a test sees one broken file; this is about failure at any place of any file, and about all that was stored before", "anchors": ["freesif/sequentialparser/sif2hdf5.py:sif2hdf5", "freesif/sequentialparser/parsers.py:parse_file", "freesif/sequentialparser/parsers.py:set_attributes", "freesif/sequentialparser/parsers.py:RecordData", "freesif/data/file.py:File.__init__"]}
{"id": "C76", "title": "A file that breaks off is not taken for a complete one", "statement": "If the bytes of a well-formed file end before its IEND record, the conversion raises an exception; no number is stored that is not in the file.", "quantifier": "all well-formed files and all places to cut them", "why_tests_cant": "tests read complete files; whether a cut is noticed depends on the byte", "anchors": ["freesif/sequentialparser/parsers.py:parse_file", "freesif/sequentialparser/sequentialfile.py:FormattedFile"]}
{"id": "C77", "title": "Principal stresses of thick shells do not depend on the order or the rounding of the eigenvalues", "statement": "The two principal stresses of a thick shell are determined by its stress components: they are the same in whatever order the eigenvalues come, an error of at most eps in the eigenvalues makes an error of at most eps in each of them, and the one removed is the middle one of the three, as the source says.", "quantifier": "all arrays of stress components, all orders of the eigenvalues, all errors", "why_tests_cant": "which eigenvalue is removed changes on a surface in the space of stresses that examples do not meet, and the order of eigenvalues is up to the library", "anchors": ["freesif/calc/principal.py:principal_thickshell"]}
{"id": "C78", "title": "Names listed by get_setnames select the sets", "statement": "get_setnames lists the names of all sets in the order of the file, or None if there are none; given one of the listed names, or all of them, as the argument sets, a method selects the elements of those sets.", "quantifier": "all data sets, sets and names", "why_tests_cant": "the test suite asks for one set by a name written in the test; what is listed is of another type, and the condition made of it is compiled at run time", "anchors": ["freesif/data/strucdata.py:StrucData.get_setnames", "freesif/data/strucdata.py:StrucData._get_setmember_indices"]}
{"id": "C79", "title": "Coordinates with a transformation", "statement": "Nodes asked for with a 4x4 matrix are moved by it; asked for in the top system, nodes of a results file are moved by the file's own transformation record; everything else raises.", "quantifier": "all results and model files (alone or in an assembly), selections, matrices over any ring", "why_tests_cant": "the tests use files whose transformation is compared with stored numbers of one assembly and never pass a matrix", "anchors": ["freesif/data/strucdata.py:FirstLevelData.get_nodes", "freesif/sequentialparser/parsers.py:xsuptran_reader"]}
{"id": "C80", "title": "Coordinates moved by a transformation are accurate", "statement": "Each coordinate that get_nodes gives with a transformation differs from the exact one by at most 8.1 units in 2^-24 of the sum of the sizes of the terms it is made of (plus 8 smallest single numbers) when the matrix is of single precision, as a transformation record is, and by at most 1.01 such units (plus one smallest number) when a matrix of double precision is given; without a transformation coordinates are those stored.", "quantifier": "all results and model files (alone or in an assembly), selections, matrices, roundings to nearest, and orders in which products are summed", "why_tests_cant": "tests compare one assembly with stored numbers, on one machine and one library for matrix products", "anchors": ["freesif/data/strucdata.py:FirstLevelData.get_nodes"]}
{"id": "C81", "title": "Periods, headings in degrees and wave elevations are accurate", "statement": "From the bytes of a hydrodynamic file: each period is within 1.5 units in 2^-24 of 2 pi over its angular frequency, each heading in degrees within 2.5 such units (plus one smallest single number) of 180 over pi times the heading, and real and imaginary part of each wave elevation within 4.001 such units (plus a few smallest numbers) of the pressure in the file over density and gravity in the file; every multiplication and division gives the nearest single-precision number.", "quantifier": "all hydrodynamic files with frequencies between 2^-100 and 2^100, headings up to 2^100, density and gravity between 2^-30 and 2^30, pressures up to 2^30", "why_tests_cant": "tests compare one file with stored numbers to a tolerance; rounding errors are bounded for no other numbers", "anchors": ["freesif/data/hydrodata.py:HydroData.__init__", "freesif/data/hydrodata.py:HydroData.get_periods", "freesif/data/hydrodata.py:HydroData.get_directions", "freesif/data/hydrodata.py:HydroData.get_fluidkinematics_raos"]}
{"id": "C82", "title": "Transformations of superelements are those of the files", "statement": "Opening a file of the top superelement gives an object whose transformations are the products, along the chain of superelements in the file's HIERARCH records, of the matrices in its HSUPTRAN records: up to the top for every superelement, and up to a level if the chain has one of that level; otherwise the hierarchy error. Level 1 is the identity, levels outside raise.", "quantifier": "all interface, input and results files of a top superelement (opened, or converted with those below), all hierarchies, levels, any arithmetic and product of matrices", "why_tests_cant": "the tests ask for no transformation of the top level object; one assembly cannot show that chains of any length are followed", "anchors": ["freesif/data/strucdata.py:TopLevelData.get_transformation", "freesif/sequentialparser/parsers.py:hierarch_reader", "freesif/sequentialparser/parsers.py:xsuptran_reader"]}
{"id": "C83", "title": "Transformations of superelements are accurate", "statement": "From the file of the top superelement: each entry of a transformation up the hierarchy, computed in single precision, differs from the product in exact arithmetic by at most 8.2 n 2^-24 times the product of the sizes of the matrices (plus a term for numbers too small for full precision), n being the number of multiplications; whichever way the library sums.", "quantifier": "all files, hierarchies of up to 1000 multiplications, matrices whose products stay below 2^99, every order and fusing of the sums", "why_tests_cant": "no test computes such a product; rounding depends on every number and on the order of summation", "anchors": ["freesif/data/strucdata.py:TopLevelData.get_transformation"]}
{"id": "C84", "title": "Von Mises and principal stresses of a results file are accurate", "statement": "Stresses at the nodes read from a file (generalstress) and handed to vonmises2d and principal2d: place by place, in the order of the array, the von Mises stress is within 5u times itself, and the principal stresses within 6u times the larger of them, plus 3 times the error of the stresses themselves (C69) and a tiny constant, of those of the exact field of the record; the first principal stress is not below the second, and the number under the root of the von Mises stress is never negative. u is the unit of rounding of the precision used; no lower limit on the stresses is assumed.", "quantifier": "all files, elements, load cases, both precisions, every order of summation, stresses below 2^50", "why_tests_cant": "the tests compare a handful of arrays with stored results; rounding and cancellation depend on every number, and the two steps are never tested together", "anchors": ["freesif/calc/vonmises.py:vonmises2d", "freesif/calc/principal.py:principal2d", "freesif/data/strucdata.py:FirstLevelData.get_elementresults"]}
{"id": "C85", "title": "Complex element results at the nodes are accurate, part by part", "statement": "Complex element results (pairs of real and imaginary part in the records) asked for at the nodes: place by place, real and imaginary part of each number returned are within the tolerance of C69 of the exact field of the real and of the imaginary parts of the record; parts are never mixed. Products of a real matrix with complex numbers are those of the parts, whatever the order of the sums.", "quantifier": "all files with one level and converted files, elements, selections, load cases with complex results, both precisions, every order of summation, numbers up to 2^100", "why_tests_cant": "the tests compare one complex file with stored results to a few digits; a loss of accuracy or exchanged parts for one element type depends on the numbers", "anchors": ["freesif/data/strucdata.py:FirstLevelData.get_elementresults", "freesif/data/strucdata.py:FirstLevelData._process_element_results"]}
{"id": "C86", "title": "Reading a VTF file always finishes", "statement": "Reading any text as a VTF file comes to an end: the model is returned or an exception is raised, the loops over lines, element types and blocks never go on forever, also for files that are broken off, have blocks without content, or are no VTF files at all. Each loop takes at most one turn more than there are lines left.", "quantifier": "every finite text, every VtfData object read into, with or without the repairs of C70", "why_tests_cant": "there are no tests of VtfData; that no text makes the nested loops go on forever cannot be shown by finitely many files", "anchors": ["freesif/utils/vtfdata.py:VtfData.read"]}
