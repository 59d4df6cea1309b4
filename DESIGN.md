# Formal model of freesif — design

Subject: `agrav/freesif` at the pinned commit, sources under `/repo/freesif`.
Nothing of it is executed here; every definition of the model cites the file
and lines it was read from.

## 1. Layers (`rocq/theories`)

Model files hold definitions only; each definition has a comment naming the
Python file and lines. Specification files (`*Spec.v`) say what should hold
without calling model functions. `Props_*.v` hold the property theorems, each
followed by `Print Assumptions`, and an example that meets its hypotheses.

| subject | model | specification | proofs | properties |
|---|---|---|---|---|
| Python values, lists, text | `Base` | | `ListFacts`, `DecFacts` | |
| floats, rounding, `float(str)`, `struct.unpack('f')` | `Flt` | `RoundSpec`, `NumeralSpec` | `FltProofs`, `RoundProofs`, `NumeralProofs`, `NumeralMore`, `FltOrder` | `Props_Num`: C54, C08 (single precision) |
| `sequentialparser/sequentialfiles.py` | `SeqFile` | `SeqSpec` | `SeqProofs`, `SeqTerm`, `NumProofs`, `SeqMore` | `Props_Seq`: C01–C04, C06, C07 |
| `sequentialparser/sequentialfiles.py` 349-402 (writing formatted files) | `Write` | `WriteSpec` | `WriteNum`, `WriteProofs` | `Props_Write`: C50 |
| PyTables as used | `H5`, `Schema` | `StoreSpec`, `DataSpec` | `StoreProofs`, `DataProofs` | |
| `sequentialparser/parsers.py` | `Parsers` | `ParserSpec`, `LayoutSpec`, `FileSpec`, `RecordSpec`, `OnlySpec`, `FieldSpec` | `ParserTerm`, `ParserRun`, `Layout*`, `FileProofs`, `ReadFile`, `Record*`, `OnlyProofs`, `ParseMore`, `FieldProofs`; samples `Sample`, `Sample2` | `Props_Parse`: C05, C08–C21, C51; `Props_Field`: C08 (names), C56 |
| `sif2hdf5.py`, `open_sif` | `SifName`, `Convert` | `SifNameSpec`, `ConvertSpec`, `AssemblySpec` | `SifNameProofs`, `Convert{Frame,Proofs}`, `Assembly{Proofs,Open}`; `ConvertSample` | `Props_Convert`: C22–C25 |
| `data/sifdata.py`, `data/helpers.py`, `data/strucdata.py` (model and node data) | `Data`, `Struc`, `Trans`, `Files` | `StrucSpec`, `TransSpec` | `DataFacts`, `Struc{Proofs,Get,Res,Exist,More}`, `TransProofs`, `FilesProofs`; `StrucSample`, `TransSample` | `Props_Struc`: C26–C34, C49, C52 |
| `strucdata.py` set names as Python values, the condition as text | `SetArg` | `StrucSpec` | `SetArgProofs` | `Props_SetArg`: C78 |
| `strucdata.py` `get_nodes` with `trans`, from files with RSUPTRAN records | `Trans` | `SaysSpec`, `TransSpec`, `CoordsProofs.own_on` | `CoordsProofs` | `Props_Coords`: C79 |
| `strucdata.py` `get_transformation`, from files with HIERARCH and HSUPTRAN records | `Trans` | `SaysSpec`, `TransSpec`, `HierFile.supers_on`, `shifts_on` | `TransProofs`, `HierFile` | `Props_Hier`: C82 |
| `strucdata.py` `get_nodes` with `trans`, with rounding | `CoordsFloat` | `DotSpec`, `SaysSpec`, `TransSpec` | `DotProofs`, `CoordsProofs` | `Props_CoordsFloat`: C80 |
| `strucdata.py` `get_transformation`, with rounding | `CoordsFloat` | `DotSpec`, `TransSpec`, `Props_HierFloat.near_product` | `HierNum` | `Props_HierFloat`: C83 |
| `data/strucdata.py` (element results) | `Elem` | `ElemSpec`, `ElemResSpec` | `ElemProofs`, `ElemRes`, `ElemMore` | `Props_Elem`: C35, C36, C53 |
| `data/hydrodata.py` | `Nd`, `Hydro` | `HydroSpec` | `NdProofs`, `Hydro{Unique,Proofs,More,Grid}`; `HydroSample` | `Props_Hydro`: C37–C39 |
| `open_sif` followed by the getters, from the bytes of the file | | `SaysSpec` | `SaysProofs`, `SaysOpen`; `FileSample` | `Props_File`: C55 |
| `open_sif` followed by the getters of hydrodynamic results, from the bytes of the file | | `HydroSays`, `HydroDefSpec` | `HydroFound`, `HydroDefProofs`; `HydroFileSample` | `Props_HydroFile`: C57 (case for a converted file: `Props_HydroConverted`); `Props_HydroDef`: C58, C59 |
| arithmetic of `hydrodata.py` (lines 61, 139, 285) | `HydroFloat` | `FltValue`, `IeeeSpec` | `FloatOps`, `FloatReal`, `FloatArith`, `PiBound`, `HydroNum` | `Props_HydroFloat`: C81 |
| conversion of an assembly, opening, and the getters of each data set, from the bytes of all files | | `AssemblySpec`, `SaysSpec` | `AssemblyData`, `SaysGives`; `AssemblySample` | `Props_Assembly`: C60 |
| `sif2hdf5`, `open_sif`, `open_hdf5`, closing: paths, links, files open at the same time | `Session` | `SessionSpec` | `Session{Proofs,More,Path}` | `Props_Session`: C73, C74, C75 (part) |
| `sif2hdf5` and `parse_file` with what they leave when they raise | `Halt` | `HaltSpec` | `Halt{Proofs,Keeps,Conv,Reads,Cut}` | `Props_Halt`: C75, C76 |
| lists of files converted into one HDF5 file or one each, opening, and the getters | `Convert` | `JobsSpec` | `JobsProofs` | `Props_Jobs`: C64 |
| element results at nodes as values of the field of a record | `Elem` | `ElemSpec`, `ElemValuesSpec` | `ElemValuesProofs` | `Props_ElemValues`: C65 |
| the script from data set to VTK file | `Export` | `ExportSpec` | `ExportItems`, `ExportRun`, `ExportNumbers`, `ExportProofs` | `Props_Export`: C66 |
| the same with element results | `ElemExport` | `ElemExportSpec` | `ElemExportProofs` | `Props_ElemExport`: C67 |
| files and data objects as dictionaries and as text | `Handles`, `Listing` | `ListSpec` | `ListProofs`, `ListFile` | `Props_List`: C61, C62 |
| files taken apart by calculation, down to what their records say | | `Describe`, `Survey` (executable, no function of the reader) | `DescribeProofs`, `DescribeTypes`, `DescribeFile`, `SurveyProofs`; `RealFiles` | `Props_Survey`: C63 |
| `data/file.py`, closing | `Handles` | `HandlesSpec` | `HandlesProofs` | `Props_Handles`: C40, C41 |
| `utils/writers.py` | `Vtu` | `VtuSpec` | `Vtu{Text,Proofs,More,Reorder}` | `Props_Vtu`: C42–C45 |
| `calc/*.py` | `Calc` | `CalcSpec`, `ThickSpec` | `CalcProofs`, `CalcEigen`, `ThickProofs` | `Props_Calc`: C46–C48; `Props_Thick`: C77 |
| `calc/principal.py`, `calc/vonmises.py` (plane), with rounding | `CalcFloat` | `IeeeSpec`, `CalcSpec` | `IeeeFacts`, `IeeeExists`, `CalcFloatProofs` | `Props_Ieee`: C68 |
| `strucdata.py` element results at nodes, with rounding | `ElemFloat` | `DotSpec`, `ElemFloatSpec`, `ElemValuesSpec` | `DotProofs`, `ElemFloatNum`, `ElemFloatProofs` | `Props_ElemFloat`, `Props_ElemFile`: C69 |
| `calc/` von Mises and principal stresses of what `strucdata.py` reads at the nodes, with rounding | `CalcFloat`, `ElemFloat` | `CalcSpec`, `ElemFloatSpec`, `ElemValuesSpec`, `Props_Stress.accurate` | `StressProofs`, `StressBound` | `Props_Stress`, `Props_StressFile`: C84 |
| `data/strucdata.py` 336-408, 762-807 for complex results, with rounding | `ElemComplex` | `ElemFloatSpec`, `ElemValuesSpec`, `DotSpec` | `IeeeIdem` | `Props_ElemComplex` (sample `ComplexSample`): C85; `Props_Converted`: C69, C84, C85 and `Props_ConvertedMore`: C79-C83, for converted files |
| `utils/vtfdata.py` | `Vtf` | `VtfSpec`, `VtfAddSpec` | `Vtf{Text,Nodes,Elems,Rest,Whole}`, `VtfAdd`, `VtfTerm`; samples `VtfSample` | `Props_Vtf`: C70–C72; `Props_VtfTerm`: C86 |

Conventions. Exceptions are values (`Err e`); a Python exception of the real
program corresponds to the same `exn` constructor. Loops are structural
recursion, or recursion with fuel whose exhaustion is the separate error
`OutOfFuel`, which C05 excludes. State of a file being read is a record
(`mkIn`: kind, unread bytes, hasrest flag, left-over floats); a converted file
is a tree of groups, attributes, tables and arrays (`H5`).

A property that the code does not have is kept: the theorem `..._refuted`
proves its negation for the model by a concrete input, and next to it the
strongest true part is proved (`..._partial` when something of the statement
is missing). In `MANIFEST.json` such properties are `partial`.

## 2. Approach per property

- **C01** framing relation; induction over the record list. **C02** IEEE-754 fields as arithmetic; every pattern, every single.
- **C03** whole numbers printed in E notation; **C54** every text: accepted iff a numeral; the value is *the* nearest double. Rounding is specified by distances to all numbers of the format (`RoundSpec.nearest`), uniqueness is a theorem.
- **C04** invariant "left-over floats ++ unread pieces = unread data", all cuts, all call partitions. **C05** measure: unread bytes.
- **C06** refuted for names missing in the allowed-name lists (W1MOTION, W1SFORCE, W2MDRIFT, TDLOAD, WINPUT). **C07** induction over records with C06.
- **C08–C15, C21, C51** one theorem `parse_file` ⊆ `file_of` (what a file says), instantiated per record type by `RecordSpec`. **C16, C17, C18, C20** refuted in general; for C16 `Props_NodeRes` (C16_half_refuted) shows that every complex record of node results loses half of its numbers, for C17 `Props_ResRef` (C17_kept_refuted) that every reference which leaves out a kind keeps the range of the ones before, for C20 `Props_History` (C20_element_refuted) that every reference to an element known only from earlier files is read where it raises KeyError without them. **C86** the lines left get fewer with every turn, so that the turns of the model (one more than the lines) are never used up.
- **C19** relation of the filtered and the full parse. **C10, C20** determinacy of the described result.
- **C22** backtracking matcher against a grammar. **C23–C25** assemblies of any depth as trees; frame properties of the store.
- **C26–C34, C49, C52** queries against an abstract mesh read off the stored tables. **C32** over any ring, and as float products in the order of the code.
- **C35, C36, C46–C48** exact arithmetic (any commutative ring/field or the reals). **C77** eigenvalues with errors as a hypothesis on `eig`.
- **C68, C69, C80, C83, C84, C85** every operation rounded to nearest, errors bounded step by step; a dot product is any tree of rounded sums and products.
- **C81** multiplication and division of floats are computed exactly and rounded half to even (`HydroFloat`), shown to give the nearest number (`FloatOps`, `FloatReal`), and their errors added up; the digits of pi come from Machin's series in the standard library.
- **C70–C72** each block written is a list of lines that takes the reader from one state to the next (`takes`); blocks compose; the round trip is the composition. Each defect has a witness built through the class's own methods.
- **C37–C39** axes by first occurrence/sorting; entries of moved axes by index.
- **C40, C41** state machine over all histories. **C42–C45** document of a call sequence, XML grammar, base64 decoder.
- **C50** refuted for the class; for the class with the missing method (a parameter of the model) the writer is a fold of one-number steps; the text of a number is the correctly rounded nine-digit decimal, and a single precision number is recovered because 10⁻⁸ is well below half the spacing 2⁻²⁴.

## 3. Trusted base

- The Coq 8.16.1 kernel (`coqc`), including its `vm_compute`, used for closed computations. No plugins, no axioms of our own, no kernel check disabled.
- `Print Assumptions` below each property theorem reports *Closed under the global context* for all theorems except the following.
  - `Props_Calc`, `Props_Thick` and `real_numbers` in `Props_Elem`, the example in `Props_ElemValues` (statements over the reals): `ClassicalDedekindReals.sig_forall_dec`, `FunctionalExtensionality.functional_extensionality_dep`, and for those using `sqrt`, `acos`, eigenvalues also `ClassicalDedekindReals.sig_not_dec` (all from the standard library).
  - `Props_Ieee`, `Props_ElemFloat`, `Props_ElemFile`, `Props_CoordsFloat`, `Props_HierFloat`, `Props_HydroFloat`, `Props_Stress`, `Props_StressFile`, `Props_ElemComplex`, `Props_Converted`, `Props_ConvertedMore` (there C79_converted and C82_jobs are closed): these three and `Classical_Prop.classic` (which the standard library's lemmas about `ln` use).
- The reading of the Python code, and of NumPy, PyTables, `struct`, `re`, `base64`, as stated in the comments of the definitions. Each model file states its simplifications at the definition concerned; the main ones are in section 4.

## 4. What is modelled and what is not

Modelled, function by function: all of `sequentialfiles.py`, `parsers.py`
(every reader that is registered), `sif2hdf5.py` and `open_sif`/`open_hdf5`,
`sifdata.py`, `helpers.py`, `strucdata.py`, `hydrodata.py`, `file.py`,
`writers.py`, `calc/*.py`.

Simplifications:

- Text is ASCII; a byte of 128 or more is a decoding error where Python decodes.
- `float(str)`: no underscores between digits. NaN has no sign or payload.
- A stored array is a list of cells; chunking, compression and the HDF5 file format are not modelled. A store value that PyTables would refuse is an error (`H5.conv_cell`).
- Integers stored in 32-bit columns wrap/raise as in `Flt.int32_set`/`int32_cast`.
- Element results at nodes are modelled twice: in exact arithmetic (`Elem`; C35, C53, C65) and with each operation rounded (`ElemFloat`; C69, real results only). There, `np.dot` may sum in any order and fuse products (`DotSpec.computes`), but gives the same result for the same numbers at the same place; numbers up to 2^100 only, so that nothing overflows; literals such as `.25` are quotients whose rounding is proved exact; products with the zeros of the matrices are kept. Complex results with rounding (`ElemComplex`; C85): all matrices and factors are real, so the model processes real and imaginary parts side by side. `C85_parts` proves that NumPy's complex product with a real factor, and sums with the products with imaginary zeros, give this; signs of zeros are not modelled.
- `calc`: exact arithmetic instead of doubles, except plane stresses, which are also modelled with rounding (`CalcFloat`: one rounding per operation, `x**2` as one product, `np.sqrt` correctly rounded; overflow is outside the ranges of C68). `np.linalg.eig` is any function returning the eigenvalues in some order.
- Superelement transformations: products of doubles are modelled over any arithmetic with the order of operations of the code; step-by-step equality only in exact arithmetic.
- A group name is one component of a path. With a `prefix` argument containing `/` the code makes nested groups; the model does not. C64 has the hypothesis; C24 and C60 are about the code only for prefixes without `/`.
- `Halt` is the conversion of `Parsers` and `Convert` again with the module state and the output at the moment of an exception (`C75_same`: otherwise the same). Each write of PyTables either happens or not; an exception between making a table and its arrays leaves what was made. What the HDF5 library still has in its buffers is taken as written (the file is closed at the end of the process).
- `Session`: a path is the list of names from the root, links are between files only; HDF5 files open are refused as by PyTables (same name) and HDF5 (same place), rules stated at `tb_open`; what a failing conversion leaves behind is that of `Halt`. `close_all_files` closes one file and raises, as shown in `Handles`. `Convert` itself sees one directory.
- Not modelled: disk errors, memory limits, threads, printing of progress, methods whose body is `pass`.

- `Vtf`: two parameters say which defect is repaired: `named` (line 154 names an existing attribute) and `two` (`next()`, `iteritems()` and lists of keys as in Python 2). What the code does is both `false`; the round trip is about both `true`. The text of a result (`%s` of a NumPy float) is a parameter `show`, of which only "reads back as the same single precision number" is used; the value written as `%12.5f` is the exact nearest decimal. Results other than `PER_ELEMENT_NODE` are not read by the code either (NotImplementedError). In Python 3 a key error may come before the RuntimeError at line 464 only as modelled (first type).

## 5. Differences between the code and what one would expect

Found while modelling; each is a `..._refuted`/`..._needed` theorem or example
unless marked (reading).

- Parser: complex node results use half of the numbers (C16); `WDRESREF` keeps stale ranges (C17); optional trailing fields before names that are not allowed swallow the next record (C18); element types leak from one file to the next (C20); shear factors of ten section types and the radius of GCHANR are stored as whole numbers (C56).
- Sequential files: allowed-name lists lack W1MOTION and others (C06); `write_record` calls a missing method; were it there, the last line would lack its end, so that its last digit is lost, and `write_string` would leave an empty line that reads as the end of the file (C50).
- Conversion: a prefix containing an extension is split wrongly, the dot may be any character and a tail is accepted (C22); a results file with a small-letter extension looks for T-names (C23); `only=` with append merges into existing groups (C24); a file holding another superelement number gives KeyError, small type letters UnboundLocalError, a hydrodynamic file without WDRESREF or WGLOBDEF is converted but not opened, and as part of a larger HDF5 file makes all of it unusable (C25, C64).
- `get_setnames` returns np.bytes_; given back as `sets` they are put into a condition `name==bnp.bytes_(...)`, or gone through as numbers, and raise NameError (C78). NumPy 2 (poetry.lock) is assumed for `repr`; numexpr's check of the condition for characters outside single quotes is not modelled (hypothesis: no single quote in the name).
- `get_nodes` with `trans`: a matrix is a list of rows, so arrays of one dimension are left out (for them the message of the ValueError cannot be made and an IndexError comes). INDEX stored as None stays None and does not matter without a top level object (an earlier version of the model raised an AttributeError here; corrected with C79).
- `CoordsFloat.get_nodes_fl` is `get_nodes` with the final product rounded: single precision for a transformation record and for a given matrix of single precision; double precision and then single (assignment to the float32 array) for a given matrix of double precision. Integer and other types of arrays given are not distinguished (`np.dot` converts them to double). The branch with a top level object, which no file reaches, keeps exact products. The size bound 2^100 on the terms of a coordinate excludes overflow.
- `HydroFloat`: periods, headings in degrees and elevations as numpy computes them in single precision (Python floats met by float32 arrays are converted to float32; complex64 by float32 is Smith's division with imaginary part zero). `Hydro` keeps them as parameters, so that C37–C39 and C57 hold for whatever they are; C81 is for these. Warnings (division by a zero frequency) are not modelled: the period is then infinite.
- Methods per class (`Handles.struc_method`): an earlier version let every structural data object have all methods; corrected with C40_methods. `get_nodes` of top and intermediate level data is `pass`, so it gives None even on a closed object.
- `principal_thickshell` removes the eigenvalue of smallest absolute value, not the middle one as its comment says: with eigenvalues 4, 3, -1 the compression is lost, and with 5, 1, -1 the second stress is 1 or -1 by the order in which NumPy gives the eigenvalues (C77).
- A conversion that raises: the group of the file is left without attributes, and the HDF5 file can then not be opened (AttributeError), nor the conversion repeated under the name (NodeError); records of the run in which reading fails are lost up to the last full batch (C75). A file cut off between two runs of records is accepted, for all files (C76_unnoticed: the cut file is itself one of `file_of`), and so is a file cut within a record: missing numbers become 0, a number cut off is read as far as it goes, e.g. 1.23456E+05 as 1.2 (C76).
- Sequences of calls: through a link of another name the group is looked up under the link's name (KeyError), inputs of the same name in different directories write to the same HDF5 file by default (C73); an exception while reading leaves the HDF5 file open under its name, so that no file of that name can be opened in that process any more, and two files of the same name cannot be in use through `open_sif` together (C74).
- Structural data: node and element order must be the numbering (C26_sequence_needed); results of disconnected nodes without selection are shifted if a node is unused (C31); no data object knows its top level object (C33); a cyclic hierarchy loops (C32_chain_needed).
- Element results: transverse shears of thick shells at nodes (C35); thin and thick shells together (C53); `vonmises_thickshell` is not implemented (reading).
- Hydrodynamic data: section forces ordered by reference are mixed up (C38); panel identifiers are sorted, panel pressures are in file order (C59).
- Files: `close_all_files` raises RuntimeError and leaves files open (C41); iterating over a file raises TypeError, as does `repr` of one with two or more data sets (C61).
- VTU: names are not escaped and wrong-state calls accepted (C42); six-node triangles, three-node beams and eight-node results keep Sesam order (C44); reordering changes the caller's array (C45); six-node triangles are drawn with their nodes in Sesam order, and the example in the docstring of VtuWriter, which names no result case, is refused for a file with several (C66).
- VTF: `VtfData()` raises AttributeError; with that repaired Python 3 stops at the first `next()`; with that too, element numbers are paired with the wrong types when results come in another order, all scalars share one list of results, a scalar with two results cannot be read, results at the end of the file are lost, wide coordinates run together (C70); the default `nodes_id` raises TypeError (C71); node blocks without a number are stored under None, a new scalar may replace an old one (C72).
- Calculations: absmax of the smallest fixed-width integer (C46).

## 6. Testing the theorems

`seeded/LOG.jsonl` records wrong variants of the model: the definition edited,
the edit, the claim broken, which theorems no longer prove, and what was
tightened. An entry's `theorems_failed` are theorems whose proof depends on a
lemma that fails for the edited model.

`tools/schema.py` compares the tables of `Schema` and the list of readers of
`Parsers` with the text of `parsers.py` (61 descriptors with their columns, order
and types, 26 lists of companion arrays, 64 readers): no difference.

The model itself was compared with the code's own reference data
(`tools/conform/run.sh`): the model functions are extracted (outside the build,
in a temporary directory), run on the data files under `/repo/tests/files`, and
their results compared with the arrays the repository's tests compare the code
with. Only the model is run, never the code. All hydrodynamic arrays of
`slowdrift_G1.SIF`, and nodes, connectivity, offsets, types, displacements,
stresses and beam forces of the first and second order structural files come out
equal bit by bit (72 arrays); four arrays of second order shell stresses agree to
5e-6, because the code's NumPy expressions round to single precision where the
model uses double precision (section 4). The assemblies `T100.FEM` and `R100.SIU` open with
the data sets one expects. Nothing in the Coq development depends on this run.

The specification `file_of` of what a file consists of was compared with real
files too: `Describe.describe` decides (soundly, C63) whether bytes are a file in
the sense of `file_of`. All files under `/repo/tests/files` are, apart from the
two `*_complexLC2_R1.SIU`, whose complex node results the code does not store in
full (C16). Two gaps in `file_of` were found this way and closed: numbers printed
without an exponent, and IEND records that do not end the file. `RealFiles`
contains six of the files; the examples of C63 evaluate the model on them.
