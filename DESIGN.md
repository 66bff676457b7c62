# Design: a Rocq model of segpy

Source modelled: `/repo` (sixty-north/segpy, Python). Proof assistant: Coq 8.16.1.
All Coq files are in `rocq/theories/`, logical name `Verif`.

## 1. Approach

* Shallow embedding. Each Python function becomes one total Gallina function that follows the
  source branch by branch. A definition that models code carries a comment `(* file:lines *)`.
* Exceptions are values: `res A := Ok a | Err e` with one constructor of `exn` per Python exception class.
* Python `int` is `Z`; `//` and `%` are `Z.div` and `Z.modulo` (floor semantics, as in Python).
  Indices and lengths are `nat` only inside list functions.
* `bytes` is `list Z` with every element in 0..255 (`bytes_ok`). A Unicode string is `list Z` of code points.
* Python `float` is IEEE binary64, modelled by `SpecFloat.spec_float` of the Coq standard library with
  precision 53 and emax 1024. Double operations (`+ - * /`, int-to-float) are the standard library's
  `SFadd`, `SFsub`, `SFmul`, `SFdiv`, `binary_normalize`. Exactness and correct rounding are proved directly on the integer
  mantissas and exponents, without real numbers: values appear in statements as integers in units of 2^-1074. Flocq is not used.
* A file object is a record of contents (`list Z`) and position. `seek`, `tell`, `read`, `write` follow `io.BytesIO`.
* `for`/`while` loops over data become structural recursion. Loops whose termination is not structural
  (`while True` over a file, `while mantissa < 2^20`) carry fuel, with a proved lemma that the fuel suffices.
* Sorting (`sorted`, `list.sort`) is a stable insertion sort. Only the sortedness, permutation and stability of
  Python's sort are relied on, and these determine the result.
* Properties are stated in files `Props_*.v`, which contain nothing but theorem statements closed by
  `exact lemma`, non-vacuity `Example`s and `Print Assumptions`. Specifications used in statements that are
  not plain list/Z vocabulary are in `Spec_*.v`, written without reference to the model's helpers.

### Python version

`setup.py` pins nothing; `catalog.py` has an explicit branch for Python >= 3.10, `tox.ini` names 3.5 and 3.6.
The model follows Python >= 3.7, where PEP 479 turns a `StopIteration` escaping a generator into `RuntimeError`.
The only affected helper is `pairwise` on an empty series (`util.py:25-28`). On Python <= 3.6 that helper silently ends.

## 2. Trusted base

* Coq's kernel (and `coqchk`).
* What `Print Assumptions` prints under each property theorem: every one of them is `Closed under the global context`.
  The development uses no axiom at all, of the standard library or otherwise.
  (The check of the whole development also lists seven constants `Coq.ssr.ssrunder.Under_rel.*`. They belong to a sealed module of the
  standard library that is loaded with `ssreflect`-based parts of it. No theorem here uses them.)
* The fidelity of the model to the Python text. Section 4 says what is and is not modelled.

## 3. Files

| file | contents |
|---|---|
| `Py.v` | exceptions, results, Python ranges, list helpers, sorting |
| `Util.v` | `segpy/util.py`, `sorted_frozen_set.py`, `reversed_sequence_view.py` |
| `Catalog.v` | `segpy/catalog.py` |
| `Builder.v` | `CatalogBuilder` through series of calls; methods of catalogs inherited from `Mapping` |
| `Spec_Builder.v`, `BuilderFacts.v`, `Props_Builder.v` | specification, proofs and theorems for C117 and C118 |
| `PyFloat.v` | Python `float` on `SpecFloat` |
| `IbmFloat.v` | `segpy/ibm_float.py`, `ibm_float_packer.py` |
| `FloatFacts.v`, `RoundFacts.v` | integer semantics of the double operations |
| `Packing.v` | `struct`/`array` integer codecs, `datatypes.py`, `field_types.py`, `header.py`, `packer.py` |
| `Formats.v` | field tables of `binary_reel_header.py`, `trace_header.py` |
| `Text.v` | `encoding.py`, codecs, textual headers, templates |
| `TextIO.v` | reading and writing textual headers (`toolkit.py`) |
| `Spec_Text.v` | cards, fields, lines, pages, EBCDIC codes, outcomes of reading |
| `TextFacts.v`, `TextIOFacts.v`, `ExtReadFacts.v`, `StdHeaderFacts.v`, `ExtFormatFacts.v`, `Props_Text.v` | proofs and theorems for C45-C54, C72 |
| `FileIO.v` | file objects |
| `Float32.v` | conversion between double and single precision (`array('f')`) |
| `Toolkit.v` | `toolkit.py` readers/writers of samples, headers, `catalog_traces` |
| `Reader.v` | `reader.py`, `writer.py`, `dataset.py`, `revisions.py` |
| `Spec_Segy.v` | single precision, samples, header formats, the traces of a file |
| `Spec_Reader.v` | outcomes of opening a file and of the methods of a reader |
| `Float32Facts.v`, `ToolkitFacts.v`, `ReaderFacts.v`, `OpenFacts.v`, `Props_Reader.v` | proofs and theorems for C55, C59-C65, C67-C69, C78-C85 |
| `Spec_Writer.v` | what a dataset is, the contents of a written file, what reading gives back |
| `WriterFacts.v`, `Props_Writer.v` | proofs and theorems for C56-C58, C66, C73, C80, C82 |
| `Cache.v` | `hash_for_file` and the reader cache of `reader.py`, with histories of calls, crashes and changes |
| `Spec_Cache.v` | when two readers answer alike, when a call is transparent, conditions on histories |
| `CacheFacts.v`, `Props_Cache.v` | proofs and theorems for C70-C72, C86, C87 |
| `NumpyExt.v` | `segpy-ext/segpy_numpy`: selections, extraction of samples and header fields, the index arithmetic of array datasets |
| `Spec_Numpy.v` | what a slice picks, grids of samples and of header fields |
| `NumpyFacts.v`, `NumpyShort.v`, `Props_Numpy.v` | proofs and theorems for C74, C75, C88-C93 |
| `Spec_Order.v` | specification of fields read in an order other than that of their places, and of accepted items |
| `OrderFacts.v`, `NumpyMore.v`, `NumpyOrder.v`, `Props_Order.v` | exact outcomes for C19, C26, C74, C75, C92, C93 in the cases in which the property as stated fails |
| `DtypeFacts.v`, `DtypeExactFacts.v`, `Props_Dtype.v` | proofs and theorems for C101 |
| `IbmNumber.v` | `ibm_float.py:431-543`: operators between an IBMFloat and int, float or IBMFloat; `//`, `%`, `round`, order |
| `Spec_IbmNumber.v`, `IbmNumberFacts.v`, `IbmNumberProps.v`, `IbmNumberExact.v`, `Props_IbmNumber.v` | specification, proofs and theorems for C102-C105 |
| `Spec_Copy.v`, `CopyFacts.v`, `Props_Copy.v` | specification, proofs and theorems for C106 |
| `FieldTypes.v` | `field_types.py`: declaring field types; assigning numbers to fields; derived formats; `examples/custom_header.py:36-54` |
| `Spec_Fields.v`, `FieldTypesFacts.v`, `Props_Fields.v` | specification, proofs and theorems for C107-C109 |
| `Objects.v` | `header.py:262-302`: the dictionaries of field values, keyed by header objects, and how objects come and go |
| `Spec_Objects.v`, `ObjectsFacts.v`, `Props_Objects.v` | specification, proofs and theorems for C110 |
| `Transform.v` | `examples/convert_sample_type.py:24-52`, `examples/scale_samples.py:24-46`, `examples/scale_source_coords.py:36-54`: datasets that change samples or headers of another one |
| `RoundUnique.v` | rounding to nearest, as specified in `Spec_Ibm.v`, has only one result |
| `Spec_Transform.v`, `TransformFacts.v`, `Props_Transform.v` | specification, proofs and theorems for C111-C113 |
| `Spec_Scale.v`, `RoundAll.v`, `ScaleFacts.v`, `CoordFacts.v`, `Props_Scale.v` | the IEEE 754 product of any two doubles (rounding, overflow, infinities, NaN), and C112 and C113 for every factor |
| `Digits.v` | `ibm_float.py:540-543`: `round` to a number of decimal digits |
| `Spec_Digits.v`, `DigitsFacts.v`, `Props_Digits.v` | specification, proofs and theorem for it (C104) |
| `Spec_Arith.v`, `ArithAll.v`, `ArithFacts.v`, `Props_Arith.v` | IEEE 754 sums, quotients and remainders of any two values, and C102, C103 and C105 without bounds on the operands |
| `Examples.v` | `cli.py:47-104` (metadata and report), `examples/report.py:18-49`, `examples/timeslice.py:43-88`, `examples/trace_positions.py:30-43`; `datatypes.py:64-72`; `dataset.py:93-97`: by the values they print or save |
| `Spec_Examples.v`, `ExamplesFacts.v`, `Props_Examples.v` | specification, proofs and theorems for C114-C116 |
| `Checks.v` | `examples/check_equal.py`: copy a file with a custom trace header format, compare headers and samples |
| `Spec_Check.v`, `CheckFacts.v`, `CompareFacts.v`, `Props_Check.v` | specification, proofs and theorems for C119 |
| `Threads.v` | calls of readers as programs of steps, threads, schedules |
| `Spec_Threads.v`, `ThreadFacts.v`, `Props_Threads.v` | specification, proofs and theorems for C120 |
| `Race.v` | `reader.py:141-159`, `191-249` as steps of several processes on one cache file: test, open, read, remove, open for writing, write; deaths and removals between |
| `Spec_Race.v`, `RaceFacts.v`, `Props_Race.v` | specification, proofs and theorems for C121 |
| `Spec_Position.v`, `PositionFacts.v`, `Props_Position.v` | specification, proofs and theorems for C122 |
| `FormatString.v` | `packer.py:107-168`: format strings, the struct module's parser for them, packer objects with a Struct and their pickled state |
| `Spec_Format.v`, `FormatStringFacts.v`, `Props_Format.v` | specification, proofs and theorems for C123 |
| `InPlace.v` | writer.py 9-61 for datasets that read the file being written (C124): through another, unbuffered file object, or through the same one |
| `Spec_InPlace.v`, `InPlaceFacts.v`, `Props_InPlace.v` | specification, proofs and theorems for C124 |
| `Commands.v` | the `main` and `transform`/`load_save` functions of loadsave.py, convert_sample_type.py, scale_samples.py and scale_source_coords.py on a small file system (C125) |
| `Spec_Commands.v`, `CommandsFacts.v`, `Props_Commands.v` | specification, proofs and theorems for C125 |
| `Indicator.v` | make_progress_indicator of loadsave.py and scale_source_coords.py (C126) |
| `IndicatorFacts.v`, `Props_Indicator.v` | proofs and theorems for C126 |
| `ReadCommands.v` | the `main` functions of report.py, custom_header.py, timed_reader.py, trace_positions.py and timeslice.py on the file system of C125 (C127) |
| `Spec_ReadCommands.v`, `ReadCommandsFacts.v`, `Props_ReadCommands.v` | specification, proofs and theorems for C127 |
| `AlmostEqual.v` | `almost_equal` of util.py on floats (C128) |
| `Spec_AlmostEqual.v`, `AlmostEqualFacts.v`, `Props_AlmostEqual.v` | specification, proofs and theorems for C128 |
| `Views.v`, `ViewsFacts.v`, `Props_Views.v` | `index` of a reversed view of a reversed view of any depth (C36) |
| `Repr.v` | `__repr__` of headers, RegularConstantCatalog, LinearRegularCatalog, SortedFrozenSet and IBMFloat (C129) |
| `Spec_Repr.v`, `ReprFacts.v`, `Props_Repr.v` | a parser for the calls that are printed, proofs and theorems for C129 |
| `Classes.v` | class statements with any number of bases: C3 order, `FormatMeta`, `SubFormatMeta`, `collect_attributes`, `super_class`, `ordered_field_names`, attribute lookup (C130, C131) |
| `Spec_Classes.v`, `ClassesFacts.v`, `ClassesMade.v`, `Props_Classes.v` | derivation, first bases and bound names as relations, proofs and theorems for C130 and C131 |
| `Power.v` | `**` of IBMFloats: CPython's `float_pow` over C's `pow` and complex powers as parameters (C132) |
| `Spec_Power.v`, `PowerFacts.v`, `Props_Power.v` | exact powers in integers, proofs and theorems for C132 |
| `Spec_Local.v`, `LocalFacts.v`, `Props_Local.v` | which bytes an answer depends on; proofs and theorems for C133 and C134 |
| `Spec_Written.v`, `WrittenFacts.v`, `Props_Written.v` | which part of a dataset a written byte comes from; proofs and theorems for C135 |
| `Mixed.v`, `Spec_Mixed.v`, `MixedFacts.v`, `Props_Mixed.v` | a SortedFrozenSet and another collection in one operator: model, specification, proofs, theorems for C136 |
| `ExactFacts.v`, `ConvertFacts.v`, `Props_Exact.v` | exactly what is given where C08, C11, C33, C34, C58 and C71 fail |
| `ConvertOnly.v`, `ExitFacts.v`, `FewerFacts.v` | proofs of C111_only, C125_exit and C119_fewer, stated in `Props_Exact.v` |
| `Stops.v`, `Spec_Stops.v`, `StopsFacts.v`, `StopsRead.v`, `Props_Stops.v` | write_segy as a list of operations, stopping it, proofs, theorems for C137 |
| `Spec_Place.v`, `PlaceFacts.v`, `Props_Place.v` | the readers of the toolkit at any position: specification, proofs, theorems for C138 |
| `Plans.v`, `Spec_Plans.v`, `PlansFacts.v`, `Props_Plans.v` | the commands as plans that can be stopped: model, specification, proofs, theorems for C139 |
| `NowFacts.v`, `Props_Now.v` | readers of files that have changed since they were opened: proofs, theorems for C140 |
| `Growing.v`, `Spec_Growing.v`, `GrowingFacts.v`, `Props_Growing.v` | opening a file that others append to: create_reader as steps, specification, proofs, theorems for C141 |
| `Pieces.v`, `Spec_Pieces.v`, `PiecesFacts.v`, `Props_Pieces.v` | file objects that read and write less than asked: the reader's methods as steps, specification, proofs, theorems for C142 |
| `Hashing.v`, `HashingFacts.v`, `Props_Hashing.v` | hash_for_file as steps: proofs and theorems for its part of C141 and C142 |
| `CachedSteps.v`, `CachedStepsFacts.v`, `Props_CachedSteps.v` | create_reader with a cache directory as steps: model, proofs, theorems for C143 |
| `Names.v`, `Spec_Names.v`, `NamesFacts.v`, `Props_Names.v` | the decimal form of revisions, names and sentences: model, specification, proofs, theorems for C144 and C145 |
| `Regular.v`, `RegularFacts.v`, `Props_Regular.v` | sizes told by the binary reel header: model, proofs, theorems for C146 |
| `Spec_BothWays.v`, `BothWaysFacts.v`, `Props_BothWays.v` | chains of conversions: specification, proofs, theorems for C147 |
| `Spec_TypesBack.v`, `TypesBackFacts.v`, `Props_TypesBack.v` | changes of the sample type there and back: specification, proofs, theorems for C148 |
| `SetItems.v`, `Spec_SetItems.v`, `SetItemsFacts.v`, `Props_SetItems.v` | indexing and slicing sorted sets: model, specification, proofs, theorems for C149 |
| `Spec_ScaleBack.v`, `ScaleBackFacts.v`, `Props_ScaleBack.v` | scaling samples there and back: specification, proofs, theorems for C150 |
| `Spec_CoordsBack.v`, `CoordsBackFacts.v`, `Props_CoordsBack.v` | scaling coordinates there and back: specification, proofs, theorems for C151 |
| `Extremes.v`, `Spec_Extremes.v`, `ExtremesFacts.v`, `Props_Extremes.v` | `min`, `max`, `minmax`, `sorted` and `sum` of IBM floats: model, specification, proofs, theorems for C152 |
| `Spec_Early.v`, `EarlyFacts.v`, `Props_Early.v` | formats with fields before the start offset (C76) and all arguments of the header constructor (C77) |
| `Spec_Ranges.v`, `RangesFacts.v`, `Props_Ranges.v` | parts of the traces of readers and of the datasets made from them (C59, C73, C111-C113) |
| `Spec_Custom.v`, `CustomFacts.v`, `SeenFacts.v`, `Props_Custom.v` | trace header formats of any kind: when the search for traces ends (C78), formats that lack fields (C79), fields in any order (C81) |
| `Props_Back.v` | exactly which written datasets are read back (C57) |
| `Spec_Values.v` | the values the standard gives to header fields, default values |
| `StandardFacts.v`, `GuessFacts.v`, `Props_Standard.v` | proofs and theorems for C96, and more for C24, C25, C53 |
| `EndianFacts.v`, `Props_Endian.v` | proofs and theorem for C97 |
| `Spec_Location.v`, `LocationFacts.v`, `Props_Location.v` | statement, proofs and theorems for C98 |
| `Spec_Cut.v`, `CutFacts.v`, `Props_Cut.v` | statement, proofs and theorems for C99 and C100 |
| `Spec_Standard.v` | field tables of the SEG Y standard, written independently of the code |
| `*Facts.v`, `IbmArith.v` | proofs |
| `Spec_*.v`, `Props_*.v` | specifications and the property theorems |

## 4. What is not modelled

* The command line parser of `cli.py`, the layout of what it prints, packaging, logging, error message texts; `repr`/`str` of objects other than those of C129.
* Python-level aliasing and mutability of header objects, except that C110 models the dictionaries the values live in; elsewhere a header is a map from field name to value. `ScaledCoordinatesDataset` changes the header it gets from its source; the reader makes a new header for every call, so this is modelled as a new header.
* SHA-1 itself: the cache key is modelled as an injective function of the byte stream that is hashed.
* The payload and sign of a NaN sample: all NaNs are one value, written with one bit pattern.
* numpy: an array is a list of rows of optional values; conversion to the dtype of an array is not modelled.
* C's `pow` and Python's complex powers are parameters (C132); complex, Fraction or Decimal operands of IBMFloats.
* Threads, except in C120; writing and opening happen in one thread. Several processes only as far as they meet at the cache file (C121).
* Operating system failures other than the modelled crash points of the cache and of write_segy (C137). Python's file objects buffer: a stop loses what is still in the buffer, so that on disk there is a shorter beginning of the file, which C137 covers as well; but the reports of C137_progress are about what was handed to the file object, not about what has reached the disk.

## 5. Plan per property

* **C01 IBM decode is exact** - Model ibm2ieee on spec_float; prove on mantissas that each op is exact; conclude on integer value in units of 2^-1074.
* **C02 IBM encode truncates toward zero to the best representable value** - Integer reasoning on mantissa/exponent of the spec_float; floor-of-floor lemma for the shifts.
* **C03 IBM encode raises exactly the documented errors** - Case analysis on the model, same integer reasoning.
* **C04 Bytes -> float -> bytes is normalisation** - From 1 and 2: encode of an exactly representable value is the canonical word.
* **C05 IBM sample arrays are preserved byte for byte** - Induction on n over the packer model.
* **C06 IBM encode is monotone and odd** - From the characterisation of 2 (largest representable value not exceeding).
* **C07 normalize preserves value and normalises** - Loop invariant mantissa*16^exp constant, fuel 6.
* **C08 IBMFloat == IBMFloat is numeric equality** - Expected false; prove refutations by witness and the exact characterisation of when == agrees.
* **C09 IBMFloat compared with a float is numeric** - as_integer_ratio by gcd lemmas; float.as_integer_ratio modelled on spec_float; order via SFcompare.
* **C10 Truncation of an IBMFloat** - Bit-mask lemmas: land with mask = subtraction of mod.
* **C11 ceil and floor of an IBMFloat** - Expected false on integers; refute and prove for non-integers.
* **C12 Negation, absolute value and zero tests** - Bit lemmas on the first byte.
* **C13 frexp and ldexp are inverse** - As 1.
* **C14 IBM arithmetic is the truncation of the correctly rounded double operation** - Definition of the double op is IEEE (SFadd..); correct rounding characterised by integer inequalities; commutativity and exactness follow.
* **C15 Integer field types accept exactly their range** - Direct, with header as finite map.
* **C16 Header layout compilation places every field at its offset** - Induction over the sorted field list with a running offset; spec is byte-indexed.
* **C17 Layout compilation rejects exactly the ill-formed formats** - Induction: adjacent checks on a sorted list imply pairwise.
* **C18 Header pack/unpack round trip for the shipped formats** - Instance of the generic theorem + computation that formats compile.
* **C19 Header pack/unpack round trip for user-defined formats** - Expected false; refute; prove for offset-ordered declarations and for coincident fields; for all other formats prove which field gets which value.
* **C20 Unpacking a header rejects buffers of the wrong length and invalid values** - Generic.
* **C21 Re-packing an unpacked header** - Generic.
* **C22 Coincident fields with different values are refused** - Generic.
* **C23 Header construction, copy and comparison** - Finite-map lemmas.
* **C24 Pickling a header preserves every field** - Expected false for derived classes; refute; prove for classes whose fields are all their own.
* **C25 Shipped headers follow the SEG Y byte layout** - Independent table of the SEG Y standard, compared by computation; generic validity.
* **C26 Sub-format views agree with the full header** - Refute for out-of-order field lists; prove for offset-ordered lists; for other lists prove which field gets which value.
* **C27 Integer sample packing round trip** - Two's complement lemmas, induction on the list.
* **C28 batched partitions its input** - Induction.
* **C29 complementary_intervals tiles the span** - Induction.
* **C30 intervals_partially_overlap** - Direct lia.
* **C31 reversed_range reverses** - Arithmetic with floor division.
* **C32 make_sorted_distinct_sequence** - Sorting lemmas; evenly spaced = range.
* **C33 make_sorted_distinct_sequence accepts any iterable series** - Expected false; refute by witness; prove for re-iterable non-empty.
* **C34 Stride, order and duplicate detection** - Induction.
* **C35 SortedFrozenSet behaves as a sorted set** - Bisect invariant.
* **C36 ReversedSequenceView is the reversal of its sequence** - List reversal lemmas.
* **C37 roundrobin visits every item once, in rounds** - Queue invariant on the cycle model.
* **C38 round_up, cmp and sgn** - lia.
* **C39 CatalogBuilder builds a faithful 1D mapping** - Each representation refines a finite map (lookup in the item list).
* **C40 CatalogBuilder builds a faithful 2D mapping** - Same with pairs; grid counting argument for the complete-product detection.
* **C41 CatalogBuilder returns None exactly for duplicate keys** - contains_duplicates on sorted data.
* **C42 An empty CatalogBuilder creates an empty mapping** - Refuted by computation under PEP 479.
* **C43 2D catalog key() inverts lookup** - Range index arithmetic.
* **C44 Catalog constructors reject inconsistent descriptions** - lia and range lemmas. For strides that are not positive the exact outcome is proved (`StrideFacts.v`).
* **C45 Textual header write/read round trip** - Codec lemmas + file lemmas.
* **C46 Unencodable or unsupported text is refused before anything is written** - Model returns the file with the error.
* **C47 Standard textual header is always 40 x 80** - Template layout computed once by vm_compute, then generic slice lemma.
* **C48 Standard textual header format/parse round trip** - As 47.
* **C49 Extended textual header pages are well-formed** - Induction over lines.
* **C50 Extended textual header preserves newlines** - Expected false; refute.
* **C51 Extended textual headers write/read round trip** - Induction over pages.
* **C52 Reading extended headers terminates with the documented errors** - Fuel sufficiency by file length.
* **C53 Encoding guess** - Counting lemmas.
* **C54 Text codecs are inverse** - Table computation over 256 entries.
* **C55 Scanning a file finds every trace** - Induction on fuel with relational spec of the chain of offsets.
* **C56 Write then read returns the same dataset** - Composition of 45, 51, 18, 5, 27, 55.
* **C57 Every dataset accepted by write_segy can be read back** - Refute by witness; 56 is the positive part. C57_exact: the conditions of C56 on the headers are necessary, from what a reader of the file gives (C59).
* **C58 Byte-order and encoding conversion is lossless** - Corollary of 56.
* **C59 Partial trace reads are slices** - List slicing of decoded bytes. A dataset made of a reader, and what the transforming datasets of the examples make of it (C111-C113), gives parts of traces accordingly (`Props_Ranges.v`).
* **C60 Reader results do not depend on the history of calls** - State machine: invariant that every read seeks first.
* **C61 3D index agrees with the trace headers** - From 40 and 55.
* **C62 2D index agrees with the trace headers** - From 39 and 55.
* **C63 Dimensionality heuristic** - From 41.
* **C64 A dataset with no traces can be opened** - Refuted.
* **C65 Read progress is between zero and one** - Refuted; computed trace of progress values.
* **C66 Write progress is between zero and one** - Induction.
* **C67 read_trace_header raises EOFError only for short files** - Refuted by a header with an invalid enumerated value.
* **C68 Erroneous but common revision codes are canonicalised when reading** - Refuted for 1 and 100; proved for canonicalize_revision alone.
* **C69 create_reader validates its arguments before reading** - Case analysis.
* **C70 The reader cache is transparent** - State machine over file system + cache; refutations for dimensionality, moved files, classes; for the rest the invariant that every entry was made by an earlier call with that key, and injectivity of the hashed stream.
* **C71 Damaged cache entries never prevent opening a file** - Invariant.
* **C72 Position-restoring helpers** - Direct.
* **C73 DelegatingDataset is transparent** - By unfolding; for readers from C59 and C84.
* **C74 ensure_superset accepts exactly the subsets** - Refute for single items; prove the rest, and exactly which items are accepted.
* **C75 Array dataset trace index mapping** - Refute for non-square; prove exactly which traces of a non-square array are placed right.
* **C76 Formats with fields before the start offset are rejected** - Expected false; refute by a compiled format. Then the exact effect: such a format compiles to what the format with its start moved to the first field compiles to (shift lemmas for grouping and gaps), so the packing theorem of C20 applies to that one.
* **C77 Header constructor refuses unknown arguments** - Expected false; refute by witness. Then the outcome for all keywords by induction over them.
* **C78 Finding the traces terminates for custom trace header formats** - Refuted: the loop is shown to use up any fuel. C78_exact: more steps than bytes mean that a position occurs twice (pigeonhole), and a position that leads back to itself gives arbitrarily long scans.
* **C79 TraceHeaderRev0 can be used for reading** - Refuted by computation, and for every format that lacks one of the five fields (C79_lacking_refuted).
* **C80 Sample codec round trip** - Single precision encode/decode lemmas on integers, two's complement, induction on the list.
* **C81 The index of a custom trace header format agrees with its headers** - Refuted by a format with a relocated field. `C81_any_order`: opening with fields in any order is opening with a format that has the n-th field in the n-th place; `C81_seen` gives that format and `C81_indexed` the values under which traces are found.
* **C82 Layout of a written file** - Induction over the traces.
* **C83 Outcome of opening a file** - Composition of the outcomes of the parts.
* **C84 Trace headers are decoded from their place in the file** - From C20 and C55.
* **C85 Trace and sample counts** - From C39 and C55.
* **C86 A cache that cannot be written never prevents opening a file** - Refuted for the directory; case analysis for the rest.
* **C87 Every seekable binary file object can be opened with the default arguments** - Refuted for descriptor numbers; case analysis.
* **C88 Slices select by position** - Arithmetic of slice bounds; refuted for negative steps of a range.
* **C89 A timeslice holds the chosen sample of each trace** - From C59 and C61, cell by cell.
* **C90, C91 Extracted inlines and crosslines** - As C89, row by row; refuted for traces of differing lengths, with the exact outcome for any lengths (`NumpyShort.v`: a range cut at the end of the trace is the selection filtered).
* **C92 extract_trace gives the chosen samples of a trace** - Refuted for plain and 3D readers; the rest from C59.
* **C93 Extracted trace header fields are those of the headers** - From C26 and C84; refuted for other orders and unsigned fields.
* **C94 first and last** - Induction on the loop of `last`.
* **C95 Corners of a 2D catalog** - From C40: the ranges of a catalog are sorted and hold exactly the indexes of the keys.
* **C96 Header fields take the values of the standard** - The standard's value sets as a table; a boolean comparison of tables proved correct
  for all integers and then computed.
* **C97 The byte order governs the samples** - Each packed item is reversed between the two byte orders; splitting a concatenation of items gives the items back.
* **C98 Cache files stay where they are documented to be** - Induction on the path for its directory; every branch of the model of create_reader changes at most one entry.
* **C99 A cut-off file keeps what is left of it** - The specifications of pages, traces, headers and samples (C83, C84, C59) are local: what they say of a file holds of any beginning of it that contains the bytes; induction on the traces.
* **C100 Failed writing leaves the complete traces** - The loop over the traces split at the failing one, with the layout of C82 for those before it; the half-written trace is then the last trace of a file that C99 describes.
* **C101 Arrays hold the samples exactly** - By the type: integers by range, IBM floats by building the single float with the same significand; refute for magnitudes of 2^128 and more. Which IBM floats are single floats is decided by size and divisibility by 2^-149 (`DtypeExactFacts.v`).
* **C102 Mixed arithmetic is arithmetic of floats** - The operators dispatch on the operand types as Python does; each is one correctly rounded double operation (lemmas of C14). `float / IBMFloat` returns an IBMFloat: refuted, with what it does return. The threshold of overflow is exact (`ArithAll.v`), so every float and int is covered.
* **C103 Floor division and remainder** - fmod is modelled on exact integers; a remainder of two doubles is a double, a remainder of two IBM floats of the same sign an IBM float. For the floor: 24-bit operands keep a quotient that is not an integer at least 2^-25 below the next one, so below 2^28 rounding to double cannot reach it. Refute for 2^60 // 3 and for -16^-65 % 1. In general it is the floor of the nearest double.
* **C104 round() finds the nearest integer** - Values with a fraction are below 2^20, all others are integers already, so the result is always an IBM float. To n digits: the nearest integer to x * 10^n, then the nearest double to a ratio of integers (`RoundAll.v`); beyond 323 digits nothing changes because IBM floats are multiples of 2^-280.
* **C105 Order against other numbers is numeric order** - float comparison is order of units; an int within 2^53 is converted exactly; beyond it rounding is monotone, which gives one direction; beyond all IBM floats the order is right or, beyond the doubles, OverflowError. The first int refused is 2^1024 - 2^970. Refute with 2^53 against 2^53 + 1 and with 2^1024.
* **C106 A copy is the same byte for byte** - `write_segy` of the reader's dataset produces `segy_contents` (C82); compare each block with the same block of the file read: text by injectivity of decoding (C54), header bytes by the values stored in their fields, samples by uniqueness of the stored bytes (a single that is not NaN has one bit pattern), along the scan of the traces. Refute with a nonzero unassigned header byte and with bytes after the last trace.
* **C107 Field types accept what they can store** - The limits of the six integer types against the ranges of signed integers; the check of enumerations; with `types_fit`, packing succeeds (C20). Refute with explicit bounds beyond the C type.
* **C108 Assigning numbers to header fields** - `int()` of a float or IBM float is the quotient toward zero of its units; then C15. Refute exactness with 3.75.
* **C109 Derived formats change only their own fields** - Fields of a derived class are its own and the others of its base; the bytes stored determine the values (C16, C20). For the custom header of the examples, the exact difference to the standard one.
* **C110 Header objects do not interfere** - Invariant over histories: the dictionaries of the fields, restricted to one object, are the values of a header record of its own; entries of objects that are gone are removed, so addresses can be used again. The theorem holds for any sharing of descriptors between classes.
* **C111 Converting the sample type** - A general lemma about datasets that present changed headers or samples of a reader's dataset (`rewritten`): if all can be stored, the file written reads as the changed ones. Instance: `_transform` of `ConvertingDataset`, for every pair of sample types.
* **C112 Scaling samples** - The same lemma with the product; rounding of the product is specified by nearness (`rounds_to`), which `RoundUnique.v` proves to be unique. For factors of any size `RoundAll.v` proves that a product rounds to an infinity exactly from 2^1024 - 2^970 on; the condition for writing is shown necessary by inverting the writer loop.
* **C113 Scaling source coordinates** - The same lemma with two assignments to header fields (C108); for factors of any size as in C112.
* **C114 Time slices with missing and short traces** - Loop invariant over the visited (inline, crossline) pairs: visited cells hold their sample, the others are empty; the pairs are a permutation of those of the traces (C61).
* **C115 Metadata and reports** - From C57 to C63: what the accessors of an opened reader return, by kind of reader.
* **C116 Listed trace positions** - From C58, for the list of all traces.
* **C117 Builder histories** - `Builder.v` models the builder's list through any series of `add()` and `create()`. `create()` leaves a permutation of the items (C39, C40) and, by uniqueness of strictly sorted lists, gives the same for every permutation; induction on the calls.
* **C118 Catalogs as mappings** - the methods inherited from `collections.abc.Mapping` are modelled over lookup and iteration, and follow from "holds exactly these items" (C39, C40).
* **C119 Copies compare equal** - the script of `check_equal.py` as a function of the contents of the file, for any trace header format. From C106 (the copy has the same text, so the guessed encoding is the same) and C58 (what the copy gives back); `==` of samples is false exactly for NaN, hence the refutation. `C119_compare` is the converse: of any two files, the comparison fails if a trace differs; `C119_equality` says what `==` of two samples means.
* **C120 Readers used by several threads** - each call is a program of seeks, reads, loads and stores; running it without interruption is the call of the model of `reader.py` (`C120_steps`). A schedule is any list of thread numbers. Invariant: the rest of the call a thread is in gives the right answer from the file and attributes as they are; attributes only go from None to the right value, and only a thread that reads traces moves a file. Assumes that one seek, one read, one attribute load or store is atomic (as under CPython's global lock), and that readers are opened before the threads start. Fails for a file object shared by threads.
* **C121 Processes that share the cache** - each process is a small machine whose steps are the operations on the cache file; a history is any list of steps, deaths and removals. Files as in POSIX (names, inodes, truncation, holes); the unpickler is any function that wants more bytes until it has the whole pickle. Invariant for the outcome: every inode holds a prefix of the pickle, at least as long as what each reader of it has read, and each inode has at most one writer. Invariant for healing: of the writers of an inode, the one that is furthest behind will still write everything that is missing. Measure for termination: bytes left to read and to write, and steps left.
* **C122 Position of the file** - no new model: the functions of `FileIO.v` already take the position. The text and the binary header are the only parts read or written before the first absolute seek; everything after it is a function of the bytes from 3600 on. The bytes written at a position are specified by `put` (`Spec_Position.v`). Fails for data that does not begin at byte 0.
* **C123 Struct formats and pickled packers** - the string is built from the chunks of C17; parsing it gives the chunks again, each gap as single pad bytes, and both pack and unpack alike. The usage is then that of the layout lemmas behind C16. Of the struct module only the byte orders and codes that header formats can have are modelled (with counts and white space).
* **C124 Writing over the file that is read** - the dataset becomes a function of the contents at the moment of each call. Invariant: when trace k is due, the position is at most the old place of trace k, and from there on the contents are the old ones; so every call answers as for the old file, and the run is the run of C122 from position 0. Buffering is left out: bytes read too early are the old ones, which is what the theorem needs, too. Fails for wider samples, for leftovers and for one shared file object.
* **C125 What the commands do to files** - a file system is a map from names to places (directory, file with identity and permissions, nothing) and one from identities to contents; several names may lead to one file. Opening for writing empties. `produces` says independently what has to be in the output: the contents written to a new file for the dataset made of the reader of the input. Cases on the two opens; that an emptied file cannot be opened follows from its length. What the output reads as follows from C58, C106 and C111-C113; that the reader guesses the same encoding from the injectivity of decoding. Fails for one file under both names and for outputs that exist already. `C125_exit` says exactly when the exit code is 0, in terms of the contents of the input.
* **C126 Percentages** - correct rounding is monotone (from `rounds_to` and its uniqueness), so int(p * 100.0) is monotone in the exact quotient; the list printed is then strictly increasing by induction. How true a number is follows from the error bounds 2^-53 and 2^-46 of the two operations. Fails for whole percentages and for the values reported while reading (C65).
* **C127 What the commands that read do** - the model keeps whatever contents the file object has afterwards, so that nothing changes is a theorem: every step from `create_reader` on leaves the contents alone. Success is decided by the outcomes of C83, C59, C114 and C116. The two reports agree because opening uses only three fields of the binary reel header, on which both formats agree (C109).
* **C128 almost_equal** - the specification is an inequality between integers (every finite double is an integer multiple of 2^-1074). The bound is exact because it is a normal number times a power of two; rounding is monotone, so what is within the bound stays there; if one of the two is at least 1 and the rounded difference is within the bound, the two are within a factor of two of each other and the difference is exact. Differences beyond the largest double are treated apart.
* **C129 Printed objects** - a parser for the part of Python's grammar that is printed is the specification; printing followed by parsing is the identity (induction over the items, the standard library's `NilZero.isi` for the digits), and constructing a header from keywords is C23. Names are assumed to be ASCII identifiers that are not keywords; `repr` of a float is a parameter.
* **C130 Formats with several bases** - classes are numbered in the order they are declared, with namespace, bases and C3 order (fuel: the length of the lists, never used up); the invariant is that the order of a class begins with the class and its first base and contains just the classes it is derived from. `C130_described` ties it to the list of levels by which the other files describe a format.
* **C131 Sub-formats** - `dict.update` over the attributes in the order of the search gives the last of them; invariant: a class binds each name once. Both refutations are small programs.
* **C132 Powers** - the special cases of `float_pow` are written out; what remains is C's `pow` for a positive finite base, a parameter of the model. All statements are in integers (units of 2^-1074); `exact_pow` is a witness that the assumption on `pow` can be met.
* **C133 Own bytes only** - two runs of `create_reader` on two files are compared step by step: the headers before the traces are equal because their bytes are, the catalogs because the relation `scan` that determines the traces (C55) holds of both files. `trace_header` and `trace_samples` read one slice each.
* **C134 Replaced in place** - a corollary of C133, of the round trips of samples (C80) and headers (C18), and of the fact that traces do not overlap.
* **C135 Parts of a written file** - each part is written as a function of that part (the packed header, the encoded cards, the packed samples), by the same induction over the traces as C82; a packed header is determined by its fields, since every covered byte belongs to a field and the others are zero.
* **C136 Sets with other collections** - the methods of `collections.abc.Set` with an operand of another type, and the rule that the reflected method is called when the left operand's gives NotImplemented (as those of set, list and the others do); then by lists without duplicates.
* **C137 Stopped writes** - write_segy once more as the list of its seeks, writes and reports (`operations`), proved to be the write_segy of `Reader.v`; a stopped program does a beginning of the list and perhaps a part of the next write. Then by induction over the list: all writes go on from where the last one ended. What such a file opens as follows from C56 and C99 (files that are cut off).
* **C138 Reading at any place** - all outcomes of read_binary_values, read_trace_header and read_binary_reel_header by cases on position, count and length, with the lemmas of C18 and C20 for the bytes.
* **C139 Stopped commands** - the commands of C125 once more as a plan, which names the file that is opened for writing and the operations on it, proved to be those of `Commands.v`; then C137.
* **C140 Files that change** - a reader made from one file's contents is used on other contents: what it has found in the first is put together with what C138 says about reading the second. For a file that is being written both contents are beginnings of the same file, by C137.
* **C141 Growing files** - create_reader once more as a tree of operations on the file, proved to be that of `Reader.v` when nobody else touches the file; its operations are then taken on a file whose contents are a function of time. By induction on the tree: an answer that the file's end did not cut short stays the same when the file grows, and after an answer that was cut short the opening ends with what the file of that moment gives. An operation is taken as atomic, and a buffered file object that answers from bytes read earlier is a file seen at an earlier moment. `hash_for_file` is treated in the same way: its loop ends at the first read that gives nothing, and the contents at that moment are what it has hashed.
* **C142 Short reads and writes** - the steps of C141 taken on a file object whose i-th read gives at most s i bytes. The reads of create_reader go onward through the file, so a read that was short looks like the end of the file: by induction on the steps the outcome is that of a beginning of the file. Two refutations: a trace that is missing without an exception, and a write that returns although bytes were not taken. `hash_for_file` reads until nothing is left, so its hash does not depend on the splitting.
* **C143 Cache and growing files** - create_reader with a cache directory as steps, proved to be that of `Cache.v` when nobody else touches the file, taken on a file whose contents are a function of time. Hashing ends with the contents of one moment (C141), making the reader with those of another one that is not earlier; the theorem says which, and the refutation is a file that grows between the two. The cache and the classes are not changed by others meanwhile.
* **C144 Decimal revisions** - the Decimal as the number of its tenths (it is exact); arithmetic on the two bytes, and two codes with the same decimal form.
* **C145 Names and sentences** - str.split, capitalize, partition, startswith and endswith on lists of ASCII codes; by induction on the string. Strings with other characters are not modelled.
* **C146 Sizes of traces** - the three helpers on a header value; positions by induction on the number of the trace from the layout of C55.
* **C147 There and back** - the dataset a reader makes is writable (C58) and its bytes are determined by its parts (C135); readers with the same readings have the same parts. Composed with C58 for chains and with C106 for the way back.
* **C148 Sample types there and back** - the nearest number of a type that has the number is the number itself; C111 twice, the second time with samples that the first type has because they came from it.
* **C149 Items and slices of sorted sets** - ranks in a strictly increasing list by induction; the positions of a slice from C88.
* **C150 Scaling there and back** - a product that is a double is not rounded, and one that the type has is not truncated; C112 twice, as for C148.
* **C151 Coordinates there and back** - C113 twice; the coordinates of the first file are in range because they were read from it.
* **C152 Extremes, order and totals** - Python's `min`, `max`, stable `sorted` and `sum` run through the operators of C09 and C102; induction on the list, for sums with the bound that n sums stay within n * 16^63, which is a double. `sum` of IBM floats calls `__radd__` from its first addition on, so it is never compensated by CPython's fast path for floats.


## 6. Assumptions and findings

Assumptions: none beyond the kernel and the fidelity of the model (section 2).

Places where the code does not have the property (each is a theorem ending in `_refuted`, with what does hold beside it):

* C08 `IBMFloat.__eq__` identifies different numbers and separates the two zeros; it is symmetric but not transitive (`C08_eq_exact` says for each pair what it gives). C11 `ceil`/`floor` of integers are off by one.
* C19, C26 a format (or sub-format) whose fields are not declared in offset order unpacks values into the wrong fields,
  because `BijectiveHeaderPacker._unpack` passes values in offset order to a constructor that takes declaration order.
* C24 pickling a header of a derived format class drops the inherited fields (`__getstate__` uses `_ordered_field_names`).
* C25 `source_energy_direction` occupies 4 bytes; the standard gives it 6.
* C96 `data_sample_format` refuses code 4 of the standard, `datum_elevation_at_receiver_group` refuses negative elevations. `data_use`, `correlated` and `data_sample_format` refuse zero (C96_zero), which other fields take for "not given".
* C97 IBM float samples are written and read most significant byte first even in a little-endian file.
* C34 `measure_stride` of a range with fewer than two items is its step, of the equal list `None`.
* C33 `make_sorted_distinct_sequence(sense=None)` loses the items of a one-shot iterator. C36 a reversed view of a reversed view
  cannot be iterated, and its `index` raises TypeError unless the item occurs exactly once. C42 `pairwise` on an empty series raises `RuntimeError`, so an empty `CatalogBuilder` cannot create.
* C44 stride 0 gives `ZeroDivisionError`, negative strides are accepted.
* C76 offsets before `START_OFFSET` are accepted. C77 keywords naming methods, and excess positional arguments, are accepted.
* C50 `format_extended_textual_header` drops blank lines of the text.
* C64 a file without traces cannot be opened: `RuntimeError` (the empty builder of C42). C65 every successful `create_reader`
  reports 9/8 and 21/16 to the progress callback before the final 1.
* C67 `read_trace_header` turns every `ValueError` into `EOFError`, so an unacceptable value in a complete header is reported as
  a short file. C68 the revision codes 1 and 100 are refused by the field's enumeration before they could be canonicalised.
* C78 a trace header format with a signed number of samples can make `catalog_traces` loop for ever. C79 `TraceHeaderRev0` as
  trace header format gives `AttributeError`. C81 a relocated field makes the index disagree with the headers.
* C57 `write_segy` accepts datasets that cannot be read back as they were: without traces (`RuntimeError` on opening), with a number of
  samples in a trace header that is not the number of samples, with a page count in the binary header that is not the number of
  extended headers, and over a longer file (whose end stays behind the new contents). C56 proves it for consistent datasets.
* C58 converting an EBCDIC file to ASCII fails (`UnicodeEncodeError`) when its text has characters ASCII lacks; what is left is an empty file, or the first 3600 bytes when the characters are in the extended textual headers only (`C58_not_encodable_refuted`).
* C73 `DelegatingDataset` does not forward an overridden `data_sample_format`.
* C70 the reader cache is not transparent: the dimensionality is not part of the key; a cached reader reopens the file it was made from, even
  if that was overwritten and a copy is being opened; a binary header class derived from `BinaryReelHeader` loses its inherited
  fields (C24), so that the second opening uses the default sample format; an edited header class of the same name is not noticed;
  forcing a dimensionality that the headers do not support is a `RuntimeError` with a cache only. C71 a cache file without read
  permission is an `OSError`. C86 so is a cache directory that cannot be made. C87 a file known by its descriptor number
  (`tempfile.TemporaryFile`) is a `TypeError` with the default cache directory.
* C74 `ensure_superset(range(10, 20, 2), [12])` raises `ValueError`. C75 the inline and crossline of a trace index are found by dividing by
  the number of inlines; the strategy for incomplete arrays always raises. C88 a slice with a negative step of a range is in decreasing
  order. C90, C91 traces of differing lengths make the extraction of lines fail, or repeat the only sample of a trace; a backward slice of samples that reaches sample 0 fails, and one with a larger step can show a sample that was not asked for.
  C92 `extract_trace` cannot be used with plain or 3D readers, and takes the index for a CDP number with a 2D reader. C93
  fields named out of their stored order get each other's values; unsigned fields cannot be extracted.
  C101 IBM floats of magnitude 2^128 or more, and those that are no multiple of 2^-149, do not fit the single floats (`f4`) of the arrays made for them.
  C102 a float divided by an IBMFloat is an IBMFloat, cut to 24 bits or refused with OverflowError, while an
  int divided by one is a float. C103 2^60 // 3 is 21 too small; -16^-65 % 1 is 1. C105 IBMFloat 2^53 is neither
  smaller nor larger than nor equal to the int 2^53 + 1; comparing any IBMFloat with an int of 2^1024 raises OverflowError.
  C106 copying a file drops what follows its last trace and clears header bytes outside all fields (unassigned bytes some
  programs use). NaN payloads are not modelled, so nothing is claimed about copies of NaN samples.
  C107 a field type can be declared with bounds beyond its C type; assignment then accepts what packing refuses with `struct.error`.
  C108 fractions are dropped silently: 3.75 is stored as 3, and -0.5 as 0 even in a non-negative field.
  C111 an IBM sample of 2^128 or more, converted to float32, makes writing fail (integers are clipped); NaN and infinities make the conversion to integers raise; the types nnint8, nnint16, nnint32, accepted by the script, raise KeyError.
  C112 an IBM product below 16^-70 makes writing fail with FloatingPointError; an integer times 1e308 raises OverflowError instead of being clipped; NaN becomes 3.402823e38, and so does the largest single when scaled by 1.0.
  C114 the time slice example raises KeyError instead of DimensionalityError for files that are not 3D (its message has a named placeholder but a positional argument).
  C119 a copy with a NaN sample compares unequal to its original.
  C120 two threads that read traces of one reader (or through one file object) can be given samples of the wrong trace.
  C121 `create_reader` raises FileNotFoundError if another process removes the cache file after the test whether it exists; two processes that write the cache file at once can leave zeros in it.
  C122 data that begins elsewhere than at byte 0 of the file is misread and miswritten: traces are read from byte 3600 of the file, and traces written overwrite a part of the reel headers.
  C124 writing wider samples over the file being read overwrites traces before they are read, without an error; after shorter traces the rest of the old file stays and may be read as traces; writing a reader to its own file object destroys the file.
  C125 the commands empty their input if it is the output under another name (only convert_sample_type looks, and only at the names), and empty an existing output even if the input turns out to be unusable.
  C126 the progress indicator shows 28% for 29 of 100 steps, and 112% and 131% while a file is opened.
  C128 `almost_equal(inf, inf)` is False, `almost_equal(inf, x)` True for every finite x and for -inf; 2^-52 and -2^-1074 are almost equal with the default epsilon although they differ by more than it.
  C129 the text printed for a `CustomBinaryReelHeader` (any format that declares an inherited field again) is a syntax error; the one printed for a `LinearRegularCatalog` has keywords `value_first` and `value_last` that the class does not accept.
  C130 `ordered_field_names` follows `__mro__[1]` only: a format with two bases reads and writes none of the fields of the second, and one whose first base is a plain mixin raises `AttributeError`.
  C131 `collect_attributes` goes from the derived class to the base and `namespace.update` keeps what comes last, so a sub-format gets `LENGTH_IN_BYTES` and `START_OFFSET_IN_BYTES` of the oldest class that has them, and an ancestor's attribute replaces a field of the same name. For the same reason `copy()` of a sub-format is that of `BaseHeader` even if the parent or the body of the sub-format overrides it. Fields of a mixin have no name, and a sub-format with one of them raises `AssertionError`.
* C136 a SortedFrozenSet is never equal to a set or frozenset, though each may be a subset of the other; `+` with another iterable raises AttributeError.
* C137 nothing marks a file as complete: one whose writing was stopped between two traces, or within the samples of one, opens without complaint, with fewer traces.
* C138 a negative `num_items` is not refused: the whole rest of the file is read before an assertion fails (or ValueError is raised, when the rest is not a whole number of values).
* C139 a command that is stopped before it has written anything leaves an existing output empty: the file is opened before the input is read.

Observations that no property turns on:

* A field type derived from another field type cannot be used: `super(cls, cls).__new__` is then `class_new` again, which calls itself for ever.
* `write_extended_textual_headers` moves to byte 3600 before it validates the pages, so a refused call leaves the file position there.
* timeslice.py writes `out.npy` if it is given the name `out` (np.save appends the extension).
* `catalog_traces` asks for the length of the file once, before it scans; if the file grows meanwhile the progress reported goes above 1.
* A read that gives fewer bytes than asked, as an unbuffered file object's may, is taken for the end of the file by `catalog_traces`: traces are missing without an exception. The numbers that `write` returns are not looked at either (C142).
* `create_reader` with a cache directory hashes the file first and scans it afterwards: if the file grows in between, the reader of the longer file is kept under the hash of the shorter one, and later given to whoever opens a file with the shorter contents (C143).
* `integer_to_decimal_revision` shows the revision codes 0x010A and 0x0200 both as 2.0 (C144). It is only used in the message of an exception.
* `ArrayDataset3d` of the Numpy extension leaves the abstract property `num_traces` undefined, so it cannot be instantiated; only its index
  arithmetic is modelled (C75).

## 7. Wrong programs

`seeded/LOG.jsonl` has one line per edit of the model: the edited definition, the edit, the English claim it breaks, the theorems that no longer
prove, and the theorems added or tightened afterwards. Every edit was made in a scratch copy, the dependents of the edited file were
recompiled, and every proof that failed was noted and skipped, together with all that rests on it.
Edits that change nothing observable are kept in the log with a note saying so.
