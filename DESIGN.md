# Formal model of njoy/ENDFtk in Rocq (Coq 8.16.1)

The sources in /repo were read as text; nothing was built or run. The model is
executable Gallina over the Coq standard library only.

## Method

* A text is a `list ascii`. A reader is a state machine over the remaining text
  and the line counter: `M A := st -> res A`, with results `Ok value state`,
  `Err exception state` and `UB` (the C++ code has undefined behaviour there).
* Exceptions are modelled with their C++ type (`std::exception`,
  `std::out_of_range`, thrown `int`, the two tag structs of InterpolationBase).
* A printer is a function to text (or to `option text`, when the C++ print can
  throw because it constructs a SEND/FEND with illegal MAT/MF).
* `double` is a finite binary64 value (sign, mantissa, exponent) with exact
  comparison; the 11-column ENDF real codec (disco::ENDF) is modelled by
  correctly rounded decimal <-> binary64 conversion.
* `std::map` is a strictly sorted association list, `std::multimap` a stable
  sorted association list.

## How to read the theories

* `Base, Disco, Records` model the text, the field codecs and the record classes; `Tree`, `Sections`, `Typed`, `Sec*.v` model the
  syntax tree, the section classes and the typed files, materials and tapes; `Classes` is the table (MF, MT) -> section class.
* `Spec`, `SecSpec`, `TreeSpec`, `EditSpec`, `TypedSpec`, `Sec*Spec` hold the vocabulary of the statements. They use the *data types* of
  the model (records, sections) but none of its readers or printers: what "fits its columns" means (`endf_real`, `endf_cont`, `ints_fit`,
  `rep_*`), what a consistent object is (`inv_*`), what a tape looks like (a grammar over lists of lines), finite maps.
* `*Proofs`, `*Safe`, `RecordRT`, `RecordSound`, `Layout`, `RealRound`, `Codec*`, ... are lemmas.
* `Prop*.v` hold the theorems of MANIFEST.json. Their names begin with the property (`C46_...`). A theorem `..._refuted` shows with a
  concrete input that a natural stronger claim is false of the code; `..._example` shows a non-trivial case that meets the hypotheses of
  its neighbours.

The shape of a section theorem is `section_rt` / `section_core` / `section_lines` (SecSpec.v): for every section whose numbers fit their
columns and which satisfies the invariant, print succeeds, the text consists of NC() lines of 80 columns and the SEND line, and reading this text
followed by *any* other text gives the same section, leaves exactly the other text and adds the number of lines to the counter; and for every
text whatsoever, if reading succeeds then the section satisfies the invariant and the reader stood behind a SEND record of the section; if
it fails it fails with std::exception (or, where the code has undefined behaviour, a precondition on the text, `tame*`, that excludes it,
together with a `_refuted` theorem that shows that it does occur).

## Proof plan, per property

| Property | modelled by | proof |
|---|---|---|
| C01-C06 | readers and printers of the record classes (Records.v) | `reads m t a k` (reader m on text t ++ rest gives a, rest, k lines) closed under bind; induction on list chunks |
| C07 | IntegerBase reader/printer, parametric in NDIGIT | induction on the value list |
| C08 | printers, `lines` | each printer is a concatenation of `NC` 80-column lines (Layout.v); sections, files, materials and tapes: the list of (MAT, MF, MT) of all lines, `tape_tails`, then Forall2 with the printed lines (PropLayout.v) |
| C09, C14, C41 | readers | closure of the predicates `consumes`, `only_std` under bind; case analysis (RecordSound.v); sections of every class: what stands before SEND is read from the lines before it (sc_body), so a cut text would end the section earlier than the whole one (PropTrunc.v); tapes by the grammar of TreeGrammar.v, which is shown to be deterministic (PropCut.v); typed files, materials and tapes: reading depends only on the lines it consumes, whatever the fuel (`local`, PropCut2.v) |
| C10, C12, C13, C35 | TAB1/TAB2/LIST readers and constructors | case analysis of the reader, induction on lines |
| C11 | regions() | induction on boundaries; PropRegions.v: every region of every accepted table, and exactly when it is defined |
| C15 | StructureDivision | case analysis |
| C16, C17 | the disco field codecs (Disco.v) | digit induction, rational arithmetic on rounding (RealRound, RealProofs); a grammar of field texts, acceptance shown equivalent (PropFields) |
| C18, C19, C28, C29, C43 | tree::{Section,File,Material,Tape} construction (Tree.v) | an inductive grammar of tapes (TreeSpec); the reader is shown to accept exactly the grammar, by induction both ways (TreeProofs, TreeGrammar) |
| C20-C23 | tree edits | simulation to a finite map, induction on histories; `_refuted` where the code violates the claim |
| C24, C25 | Section::clean | induction on lines; `_refuted` for exception safety |
| C26, C27 | updateDirectory (Sec451.v) | induction on files and sections; `_refuted` for the defects |
| C30-C34 | typed files, materials, tapes, toSection/... (Typed.v), generic in a table of section classes | composition of section round trips; `table_ok` is proved for the table of the library (PropClasses); a file 30 of a material that was read has no sections (PropFile30) |
| C44 | the loops of typed files and materials | fuel is shown irrelevant: a measure (remaining text) decreases; `_refuted` with non-terminating inputs |
| C36-C40, C45 | sections of files 1, 3, 23, 27 | `cod` combinators (Codec.v): a reader/printer pair is built from pairs for its parts, each rule proved once |
| C42 | readers vs. a column specification | induction on lines |
| C46, C56 | files 2, 32 | `cod` for every component; C56 weakens printing to what survives the compact packing; error bound of the packed correlations by rational arithmetic (Sec32Corr) |
| C59 | rows and columns | the chunks of a list record against its strides, for a list of any number of rows (Views, PropViews); subtraction of doubles is a parameter |
| C60 | constructors with named arguments | one function per constructor and accessor (Parts); the exact condition of C35 and the round trips of the records lifted to each (PropNamed) |
| C61 | operator== and != of the records | the comparisons field by field (Equal); equivalence with field-wise equality of the numbers' values, uniqueness of the representation of doubles, and the round trips of C01-C05 (PropEqual) |
| C62 | typed reader of a tape against tree index | both models on one text given by TreeSpec's sources; section readers are closed (they succeed on a text beginning with the section's lines only by reading exactly these: field sc_local of section_rt, proved with the round trips), induction over sections, files and materials (PropAgree), instance for the library and the texts where they disagree (PropAgree2). The INTG records of 32/151 are read beyond a line of less than 66 columns, so for file 32 only the weaker section_long holds (SecLong, Sec32Local) and the closing line of such a section is required to have 66 columns. Missing: file 30 (it has no reader) |
| C63 | MF1 MT458 components by name | Fission.v models the constructors from components and the accessors of ThermalPointComponents, PolynomialComponents and TabulatedComponents (chunk, drop_exactly, stride); lemmas on chunks and strides of rows of nine pairs, then C45's section codec for the text; order 0 and empty components refuted |
| C64 | MF6 LAW = 1 records by name | Law1.v models the constructors of TabulatedDistribution and ThermalScatteringData from named parts and their accessors; the generated list is shown to be the concatenation of rows and the accessors its columns; acceptance through base1_spec/size1_spec (32-bit sizes exact) |
| C65 | Sections made from their parts | Make.v models every section constructor from parts; PropMake.v has a table `maker` (constructor, contents it is to have) and proves once for the whole table what is accepted, what the section then is, that it survives printing and reading if and only if the contents are valid, and which readable sections cannot be made (1/451 and 2/152 in PropMake2.v) |
| C66 | Parsing a whole tree | Parse.v models tree::Tape::parse and fromFile; PropParse.v shows that the content of any tree made by indexing and editing is a canonical tape source of its non-empty files and materials, and reuses the agreement of C62 |
| C67 | The description section by name | Descr.v models the named accessors of 1/451; PropDescr.v relates them to the constructor, to the columns of any text that is read (C42, C09) and to the printed text (C36, C57) |
| C68 | The sequences of the Python module | Py.v models the lambdas of python/src/views.hpp on lists with the conversions to int, size_t and ptrdiff_t, and, as trusted environment, pybind11's choice of an overload and CPython's PySlice_Unpack/AdjustIndices; PropPy.v states the language reference and proves both keys for all values (induction over the loop, arithmetic modulo 2^64) |
| C69 | A tree edited with typed sections, files and materials | TypedEdit.v models the overloads that take typed arguments; PropTypedEdit.v states a history as a finite map from (MF, MT) to typed sections and proves that it refines to the edits of C20, with the round trip of every class (C30) for the arguments; the whole edited material by C66. |
| C70 | A tree written out and read in again | PropSave.v: from the invariants of every built tree (C20, C21) a canonical source of its content is constructed, and the grammar of the index (C18) read backwards gives the tree; with C69 for typed histories |
| C71 | The tree, the strings and the files of the Python module | PyTree.v models the parse dispatch, from_string/to_string, material(mat), to_file/from_file of the bindings; PropPyTree.v reduces them to C66, C30-C32 and C70; the disk is a map from names to texts |
| C72 | Editing and cleaning inside a tape | Nested.v models edits through the references returned by material(mat), file(mf), section(mt); PropNested.v states them on the look-ups (a list of views for each MAT) and proves every history by induction; the cleaning loops by induction over sorted maps and the multimap, with positions in lexicographic order; the specification is shown to be deterministic |
| C73 | Printing what was read is stable | Rounded.v states, class by class, sections with ordinary doubles instead of ENDF numbers and the same section with every number rounded; RoundProofs.v and RoundSecs.v show that rounding keeps every check (monotony of rounding), every count and the printed text; PropRound.v adds the round trips C31, C32 for the rounded object |
| C74 | Columns after 75 are not looked at | Keeps.v: a relation between states that every record reader preserves (same outcome, related rests) is preserved by every section reader of Classes.v, whatever the outcome. PropCols.v: the relation "the first 75 columns of each line agree", carried through the fields of a line by the column they begin in (INTG records may cross a newline, then the column is further left), and through the loops of files, materials and tapes, whose fuel only has to exceed the number of lines |
| C75 | Blanks at the end of a line, and how MAT, MF and MT are written, do not matter; clean() keeps what a section says | PropPad.v: the relation "columns 1-66 agree after padding with blanks, and MAT, MF, MT read as the same numbers" is preserved by every record (fields are parsed up to trailing blanks), hence by every section (Keeps.v), file, material and tape (KeepsTree.v). The SEND is the last line only, so that it can be exchanged (swap_send); with C24's description of clean() this gives: a section parses to an object iff it ended with a SEND and the cleaned section parses to it. PropPadTree.v: the contents of a tree of plain sections before and after clean() are lines that say the same (twin, preserved by content()), so file, material and tape are parsed to the same outcome. PropPadSend.v: with SEND lines that may hold anything, a section is parsed as the same object before and after (swap_send), so C66 (parsing a tree is parsing its sections) gives the claim for materials and tapes. C75_refuted: an INTG line shorter than 66 characters is not the same as one with blanks |
| C76 | A tree depends on what it holds, not on the order of the edits | PropOrder.v: sorted maps with the same entries are equal (strict_ext, weak_ext), so that the invariants of C21 make a tree a function of its lookups; C20_histories carries this to histories: an edit reads and changes only its own file (op_same, op_other), so edits of different files commute; the outcome of a list of puts is described by find and existsb, which do not see the order. C76_order_matters_refuted: where the order does matter |
| C77 | An edit changes only its own piece of the content | PropLocal.v: a strictly ordered map is the entries before a key, the entry, the entries after it; two maps that agree on all other keys share both sides (C76), so the content is closed (A ++ piece ++ B) with the same A and B; C20 says what an edit leaves. Statements in terms of mat_content / tape_content and lookups only. C77_refuted: the last section of a file |
| C57, C58 | HEAD and inner control records | the columns of C42 applied to the first record read or printed by each component (PropHeads, PropInner), independent of the round trips |
| C47, C48, C49, C54 | files 4, 5, 6, 26, 28 | as C37, plus `never`/`walk` rules for undefined behaviour through LIST counts |
| C50, C51, C52, C53, C55 | files 7, 8, 9-15, 31-40 | as C49; constructors from parts by induction on the parts |

## Trusted base

* The kernel of Coq 8.16.1 (coqc rebuilds every file, coqchk re-checks the compiled files), with `vm_compute` used in the examples.
* Print Assumptions says *Closed under the global context* for every theorem of MANIFEST.json: no axioms, not even those of the standard
  library. The list, theorem by theorem, is in ASSUMPTIONS.txt, written by tools/assumptions.py.
* coqchk also lists seven declarations `Coq.ssr.ssrunder.Under_rel.*` of the standard library. They are the fields of the sealed module
  `Under_rel` of `Coq.ssr.ssrunder`, loaded through Coq's own library; no theorem uses them.
* That the model is the code. Every definition cites the file (under /repo/src/ENDFtk) and lines it models, checked by tools/cites.py; simplifications are
  stated there and collected below.
* Classes.v and PropClasses.v are generated by tools/classes.py from tools/classes.json; the generated files are what is checked.

### What is modelled

`/repo/src/ENDFtk`: Base-, Control-, Head-, List-, Tabulation-, Interpolation-, InterpolationSequence-, Text-, TapeIdentification-,
Directory-, Integer- (INTG) and StructureDivision records; `record::{Integer,Real,...}`; `readSequence`; `tree::{Section,File,Material,Tape}`
(construction from text, look-up, edits, content, clean, toXxx), `tree::updateDirectory`; `section::Base` and every section class of the library
(1/451, 452, 455, 456, 458, 460; 2/151, 152; 3; 4; 5; 6; 7/2, 4, 451; 8/454, 457, 459; 9; 10; 12; 13; 14; 15; 23; 26; 27; 28; 31; 32/151; 33; 34;
35; 40): reading, printing, NC and the constructors and look-ups named in the theorems; `file::Type<MF>`, `Material`, `Tape`.

### What is not modelled

* The Python bindings of single classes (their properties return what the C++ accessors return); of the bindings, the views and slices (C68), the parse
  dispatch, strings and files (C71) are modelled; how the operating system opens files (a disk is a map); log messages (only the exception).
* Keeping a reference while its element is erased; copy and move (objects are values; the self-move in insertOrReplace is taken as a copy); allocation
  failure; sizes beyond the address space.
* Arithmetic on counts wraps as C++ does where conversions happen (`i32`, `u32`); overflow of signed arithmetic is modelled as undefined behaviour in files
  2, 6, 7, 8, 26, 31-35, 40; in the other files the counts are added exactly.
* When several checks of a constructor fail, which is reported first and how much text was consumed before (4, 1/455, 9, 10, 13, 14, 28, 8, 7, 2, 32). All
  these failures are std::exception.
* Negative counts of MF14 loops are modelled as a failure of the following check. In Typed.v `UB` also stands for loops that do not end.
* NaN and infinities: a `real` is a finite double. The parser never produces others (values beyond the range are refused in the model).
* 32/151 reads one CONT record of every range twice and counts its line twice. `rd_32_151` leaves the counter alone there, so that the theorems
  about lines can be stated; `rd_32_151_as_is` has the code's counter and C56_line_counter relates both.
* The 11-column real codec belongs to disco; see below.

### Assumptions about code outside /repo

The njoy tools `disco` field codecs, range-v3 views and libstdc++ containers are not in /repo. They are modelled from their documented behaviour and
from the expectations in the ENDFtk unit tests.

* disco fields consume at most their width and stop before a newline or at the
  end of the text; what is missing reads as blanks. A blank integer or real
  field reads as 0. `Record<...>` ends by moving past the newline;
  with `RetainCarriage` it does not.
* disco::Integer<w> prints right-justified with `setw`, disco::Character<w>
  left-justified, disco::Column<w> blanks.
* disco::ENDF prints `sd.ddddddsd`, `sd.dddddsdd` or `sd.ddddsddd` (first that
  fits), correctly rounded, and reads the correctly rounded binary64 value.
* range-v3 `views::split` does not produce a trailing empty piece; `stride`, `chunk`, `drop`, `take` have their documented meaning, and applying them with a
  stride of zero or dropping more than there is is undefined behaviour.

## Findings

Behaviour of the code that contradicts what a user would expect; each is a theorem (mostly `..._refuted`) about the model.

* Transition probabilities with NPL not a multiple of NT are accepted: there is one more transition than NT and its probability is undefined (C53_ragged_undefined).
* The radius uncertainties of a Reich-Moore range may be an empty list: DAP() and DAPL() are undefined (C56_radii_refuted).
* Reading 12 with LO=2 and NT=0 divides by zero; 6/26 law 1, 5 and covariances with LB=6 and NER=0 likewise, or overflow (C53, C49, C54, C55).
* File 30 is accepted and never printed; a file 8 not beginning with 454, 457, 459 is read as empty; an empty file prints a lone FEND, which makes
  re-reading fail (C33). A file 8 with, say, sections 16 and 457 is read as empty; a line that is no end record at all ends it (C33_mf8_skipped). The tape number is lost (C34). A tape without TEND, or a SEND of file 8 taken for a HEAD, makes reading run forever (C44).
* clean() of a section loses its text when it throws (C25); a failed insertion of a section leaves an empty file (C23).
* updateDirectory: NC of 451 is wrong without description lines, an entry is lost when 451 is not first, modification numbers of an unsorted directory are
  lost (C26, C27). Description lines beyond 66 columns are printed as lines that do not read back (C36).
* A section without SEND inside a tape swallows the FEND and the next section (C28).
* The largest doubles are printed as text that does not read back (C16).
* Constructors accept objects that cannot be read back: mixed kinds in 14, a total with one photon in 12 and 13, negative laws in 6, laws from empty vectors
  (C53, C49), uncertainties with wrong sizes in 32 (C56).
* 32/151: NDIGIT=3 is unreadable, a correlation of -1 does not fit, unsorted indices are misplaced, the line counter is off by one per range (C56).
* INTG records on short lines move the iterator past the end of the text (C14).
* Counts are compared modulo 2^32 (C35_wraparound_refuted, C35_sequence_wraparound_refuted), LNU = 2^32 + 1 is read as 1
  (C35_flag_wraparound_refuted), boundaries of a TAB2 may be negative (C35_negative_boundary_refuted).
* A tree file made from a text takes sections of other materials (C28_mixed_file_refuted); a tree section takes lines of any material and file
  (C28_mixed_section_refuted).
* 6 and 26 ContinuumEnergyAngle made without distributions is undefined behaviour; AngularDistributions exchanges boundaries and interpolants, and so do the classes that call it; Z() of file 27 is unchecked when read (C60).
* A subshell of file 28 without transitions: three of the four columns are undefined (C54). The size check of 28 overflows for 2^30 transitions (C54).
* Reading a tape: files of different MAT before one MEND become one material, a HEAD with another MF is filed under the current file, a repeated MEND is a
  material 0 without files, repeated or missing SEND/FEND make the reading fail although the tree index tolerates them (C62).
- 1/458: PolynomialComponents made from one value per component prints the text of a ThermalPointComponents and is read back as one; made from nine empty vectors it is accepted with NPLY = -1 (a size_t 0 - 1), survives printing and reading, and looking at any component but the first is undefined (C63).
- 6/ContinuumEnergyAngle: ThermalScatteringData checks nothing, so a record with N2 = 0 is read (LANG = 3) and then NEP() divides by zero, EP() strides by zero and LTT() takes the front of an empty list (C64_thermal_refuted)
- 33: a section lumped into another reaction that still has reactions is read but cannot be made (C65_lumped_refuted). 13: a total with one partial, 14: photons of two kinds, 34: a block made for another MT are accepted and do not survive printing and reading (C65_total_refuted, C65_kinds_refuted, C65_block34_refuted)
- tree::Tape::parse loses materials without sections, and throws if there are no others (C66_empty_material_refuted, C66_any_tape); it accepts trees of tapes the typed reader refuses (C66_example)
- 14 and 2/152 compare their records with the MAT of the HEAD record and only SEND with the MAT asked for (C53_mat14_refuted, C46_mat152_refuted)
- 6, LAW = 1: energies are computed before the sizes are verified, undefined for NA <= -2, ND < 0 or ND beyond the energies (C49_law1_undefined)
- 1/451: isStable() is true exactly for the unstable targets, STA = 1 (C67_stable_refuted)
- a tree material without sections has the content "", and "" is read as material 0 with no files (C70_empty_refuted); the tape number is not written (C70_tape_number_refuted)
- Python: to_file into a file that cannot be opened returns without an exception (C71_to_file_refuted); if content raises, the file is already empty (C71_truncated_refuted)
- A typed material cut behind any FEND is accepted without its other files, since the end of the text reads as a MEND (C41_material_refuted); a typed file 30 is accepted however it is cut (C41_file_30_refuted).
- Python: copy() of a bidirectional view raises TypeError, its lambda is declared for the other category (C68_copy_refuted); front() of an empty view is undefined (C68_front_refuted); an index beyond int is a TypeError (C68_item_refuted), view[-1] of 2^31 elements an IndexError (C68_long_refuted); a slice of 2^32 elements loops for ever (C68_endless_refuted)
- a TAB1 with a first boundary of 0 and a second region is read; that region starts before the first point (C11_empty_region_refuted)
- 2/151 R-matrix limited: numberBackgroundChannels() is the number of channels (C46_background_count_refuted)
- 1/451 and 2/152: fields without a name that are not zero are kept when read and cannot be made (C65_unnamed_451_refuted, C65_unnamed_152_refuted)
* NST of 8/457 and the counts of the HEAD of 12 with LO=2 are not looked at and replaced when printing (C57).

## Testing the theorems

tools/mutate.py edits one definition of a scratch copy of the model, rebuilds and lists the theorems that fail; the results are in seeded/LOG.jsonl, one line per
edit. Edits that no theorem noticed were either equivalent (said so in the log) or led to a stronger theorem (named in the log).
