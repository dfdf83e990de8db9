{"id": "C01", "title": "CONT/HEAD record round trip", "statement": "Printing a ControlRecord with some MAT, MF, MT and reading the printed text back with the same MAT, MF, MT yields an equal record, consumes exactly the printed line and advances the line counter by one, whatever text follows.", "quantifier": "every record whose four integers fit in 11 columns and whose two reals are ENDF-representable, every MAT/MF/MT fitting 4/2/3 columns, every following text, every line number", "why_tests_cant": "the field values, widths and signs form an unbounded product; tests sample a handful", "anchors": ["src/ENDFtk/ControlRecord.hpp: ControlRecord, print", "src/ENDFtk/record/Base.hpp: Base", "src/ENDFtk/record/TailVerifying.hpp"]}
{"id": "C02", "title": "LIST record round trip", "statement": "Printing a ListRecord and reading it back yields an equal record (same header, same list), consumes exactly NC() lines, whatever follows; for every list length, including zero, exact multiples of six and partial last lines.", "quantifier": "every list of ENDF-representable reals of any length, every header, every following text", "why_tests_cant": "unbounded list length; the boundary cases at multiples of six recur forever", "anchors": ["src/ENDFtk/ListRecord.hpp", "src/ENDFtk/ListRecord/src/print.hpp", "src/ENDFtk/record/Zipper/src/unzip.hpp: unzip"]}
{"id": "C03", "title": "TAB1 record round trip", "statement": "Printing a TabulationRecord that the constructor accepts and reading it back yields an equal record (boundaries, interpolants, x, y), consumes exactly NC() lines, for every number of regions and points.", "quantifier": "every valid TAB1 with any number of interpolation regions and points", "why_tests_cant": "unbounded numbers of regions and points, interplay of two zipped blocks with partial lines", "anchors": ["src/ENDFtk/TabulationRecord.hpp", "src/ENDFtk/TabulationRecord/src/print.hpp", "src/ENDFtk/record/InterpolationBase.hpp"]}
{"id": "C04", "title": "TAB2 record round trip", "statement": "Printing an InterpolationRecord and reading it back yields an equal record and consumes exactly NC() lines.", "quantifier": "every valid TAB2 record", "why_tests_cant": "unbounded number of regions", "anchors": ["src/ENDFtk/InterpolationRecord.hpp", "src/ENDFtk/record/InterpolationBase.hpp"]}
{"id": "C05", "title": "TEXT and TPID record round trip", "statement": "A TextRecord / TapeIdentification built from any newline-free string holds exactly 66 characters (padded with blanks or truncated); printing and reading it back gives the same text (and for TPID the same tape number in the MAT columns).", "quantifier": "every newline-free string of any length", "why_tests_cant": "all strings of all lengths", "anchors": ["src/ENDFtk/TextRecord.hpp", "src/ENDFtk/TapeIdentification.hpp"]}
{"id": "C06", "title": "Directory record round trip", "statement": "Printing a DirectoryRecord and reading it back yields the same MF, MT, NC and MOD.", "quantifier": "all field values fitting their columns", "why_tests_cant": "unbounded value product", "anchors": ["src/ENDFtk/DirectoryRecord.hpp"]}
{"id": "C07", "title": "INTG record round trip up to trailing zeros", "statement": "Printing an IntegerBase record of any NDIGIT 2..6 and reading it back yields the same I, J and the same values with trailing zeros removed; the number of stored values never exceeds the column capacity 18/13/11/9/8.", "quantifier": "every NDIGIT in 2..6, every list of unsigned values that fit NDIGIT columns, up to the capacity", "why_tests_cant": "value lists of every length and content for five layouts", "anchors": ["src/ENDFtk/record/IntegerBase.hpp", "src/ENDFtk/record/IntegerBase/src/print.hpp", "src/ENDFtk/record/IntegerBase/src/readIntegers.hpp"]}
{"id": "C08", "title": "Printed layout: NC() lines of exactly 80 columns", "statement": "For every record and section type the printed text consists of exactly NC() lines (plus SEND for sections), each of exactly 80 characters before the newline, with MAT, MF, MT right-justified in columns 67-70, 71-72, 73-75 and blanks in 76-80; a printed file, material or tape consists of such lines only: those of its sections in order, each section followed by its SEND line (MT 0), each file by FEND (MF and MT 0), each material by MEND (all 0), the tape by TEND (MAT -1).", "quantifier": "every value whose fields fit their columns", "why_tests_cant": "unbounded sizes; one off-by-one in padding shifts every later column", "anchors": ["src/ENDFtk/ListRecord/src/print.hpp", "src/ENDFtk/TabulationRecord/src/print.hpp", "src/ENDFtk/record/InterpolationBase/src/print.hpp", "src/ENDFtk/section/3.hpp"]}
{"id": "C09", "title": "A successful read only consumes lines carrying the requested MAT/MF/MT", "statement": "If reading a record or section body from any text succeeds, then every line consumed carries the requested MAT, MF and MT in columns 67-75, and the line counter advanced by exactly the number of lines consumed. A typed file, material or tape that is read takes up whole lines, the last of which is the FEND (for a file 8 that is skipped: or a line that is no end record; file 30: anything), MEND or TEND, and the object read depends on no later line.", "quantifier": "every input text, well-formed or not", "why_tests_cant": "all texts, including malformed ones", "anchors": ["src/ENDFtk/record/TailVerifying.hpp: TailVerification", "src/ENDFtk/record/Zipper/src/verifyTail.hpp"]}
{"id": "C10", "title": "Interpolation tables obtained from parsing satisfy their invariants", "statement": "If a TAB1/TAB2 read succeeds on any text, then NR >= 1, boundaries and interpolants have NR entries, boundaries are non-decreasing, the last boundary equals the number of points, x is non-decreasing and x and y have the same length.", "quantifier": "every input text", "why_tests_cant": "all texts", "anchors": ["src/ENDFtk/record/InterpolationBase.hpp", "src/ENDFtk/TabulationRecord/src/ctor.hpp", "src/ENDFtk/InterpolationRecord.hpp"]}
{"id": "C11", "title": "Interpolation regions cover the table", "statement": "For every TAB1 that is read or made, regions() gives one region per boundary, and region i is made of the points from boundary i-1 (or the first point) to boundary i, both included. If the boundaries are strictly increasing and start above zero, consecutive regions share exactly one point and, dropping the shared points, the regions concatenate to the whole x and y arrays. All regions are defined exactly if the first boundary is above zero or there is a single region; a table with more regions and a first boundary of zero or less is accepted, and its second region starts before the first point (undefined behaviour).", "quantifier": "every valid TAB1 with any number of regions and points", "why_tests_cant": "unbounded number of regions", "anchors": ["src/ENDFtk/TabulationRecord.hpp: regions"]}
{"id": "C12", "title": "Illegal counts are rejected", "statement": "Reading rejects with std::exception every LIST with negative NPL, every TAB1/TAB2 with NR < 1 or negative NP/NZ, and every TAB1/TAB2 whose last boundary differs from NP/NZ.", "quantifier": "every text whose header line has such counts", "why_tests_cant": "all texts", "anchors": ["src/ENDFtk/ListRecord.hpp", "src/ENDFtk/record/InterpolationBase/src/verifyN2.hpp"]}
{"id": "C13", "title": "Junk after the last value of a partial line is rejected", "statement": "If the unused slots of the last line of a LIST, of the boundary block or of the pair block hold a non-zero value, reading fails.", "quantifier": "every list length not a multiple of the line capacity, every slot, every non-zero value", "why_tests_cant": "all lengths, slots and values", "anchors": ["src/ENDFtk/record/Zipper/src/readPartialLine.hpp"]}
{"id": "C14", "title": "Only std::exception escapes from record and section parsing", "statement": "On every text a CONT, HEAD, LIST, TAB1, TAB2, TEXT, DIR, TPID read, or a sequence of components, either succeeds or throws std::exception: the integers thrown by the tail verification and the exception types of the interpolation base never escape. INTG records have the property on lines of at least 75 columns; on a shorter line the iterator is moved past the end of the text (undefined behaviour).", "quantifier": "every input text", "why_tests_cant": "all texts", "anchors": ["src/ENDFtk/ControlRecord.hpp", "src/ENDFtk/ListRecord.hpp", "src/ENDFtk/InterpolationRecord.hpp", "src/ENDFtk/TabulationRecord.hpp", "src/ENDFtk/record/TailVerifying.hpp"]}
{"id": "C15", "title": "Structure division classification", "statement": "Every structure line is classified as at most one of HEAD, SEND, FEND, MEND, TEND; SEND/FEND/MEND/TEND records print a line that reads back as the same kind with the same MAT/MF; constructing SEND/FEND with MAT<1 or MF<1 is rejected.", "quantifier": "every line, every MAT/MF", "why_tests_cant": "all field combinations", "anchors": ["src/ENDFtk/StructureDivision.hpp"]}
{"id": "C16", "title": "Printing and re-reading reals is stable", "statement": "A real field is accepted exactly when it is blank (read as 0) or one decimal number (optional sign, digits with an optional point, optional exponent with or without letter, surrounded by blanks); the result is a double nearest to that decimal, none being closer. For zero and every double with 2^-998 <= |x| < 2^1011: the text printed has 11 columns, denotes a decimal of 7 (6, 5) digits for 1 (2, 3) exponent digits within half a unit of its last digit, reads back to a double that prints as the same 11 characters, and reading back preserves order; decimals with at most that many digits survive print and read exactly. The largest doubles are printed as text that does not read back.", "quantifier": "every text for reading; zero and every double with 2^-998 <= |x| < 2^1011 for printing", "why_tests_cant": "2^64 doubles; rounding boundaries are sparse", "anchors": ["src/ENDFtk/record/Real.hpp: Real (tools/disco/ENDF)"]}
{"id": "C17", "title": "Integer columns", "statement": "Integer fields are right-justified in their columns and read back unchanged when they fit; blank columns read as 0; a field is accepted exactly when it is blank or one integer (optional sign, decimal digits) surrounded by blanks, and a record with any other integer field is refused with a std::exception.", "quantifier": "every integer and width, every text of a field, every control record", "why_tests_cant": "all integers", "anchors": ["src/ENDFtk/record/Integer.hpp: Integer (tools/disco/Integer)"]}
{"id": "C18", "title": "Indexing a canonical tape loses nothing", "statement": "Indexing the text of a well-formed tape (sections with ascending MT, files with ascending MF, materials with ascending MAT, each closed by its SEND/FEND/MEND and TEND) and asking for content() gives back exactly the same text; the same for File and Material.", "quantifier": "every well-formed tape text with any numbers of materials, files, sections and lines", "why_tests_cant": "unbounded sizes and contents", "anchors": ["src/ENDFtk/tree/Tape.hpp", "src/ENDFtk/tree/Tape/src/createMap.hpp", "src/ENDFtk/tree/Material.hpp", "src/ENDFtk/tree/File.hpp", "src/ENDFtk/tree/Section.hpp"]}
{"id": "C19", "title": "A section lookup returns exactly the text of that section", "statement": "After indexing a well-formed tape, the section (MAT, MF, MT) content is exactly the lines from its HEAD record through its SEND record, and its MAT, MF, MT are those of the HEAD; absent numbers are reported absent (hasX false) and looking them up throws std::out_of_range.", "quantifier": "every well-formed tape and every (MAT, MF, MT)", "why_tests_cant": "unbounded sizes", "anchors": ["src/ENDFtk/tree/Section/src/findEnd.hpp", "src/ENDFtk/tree/Tape.hpp: material", "src/ENDFtk/tree/Material.hpp: file, section"]}
{"id": "C20", "title": "Edits on the tree behave like edits on a finite map", "statement": "Under any sequence of insert, insertOrReplace and remove operations on a Material (sections and files), lookup of (MF, MT) returns the content last inserted and not removed, insert of an existing key fails and changes nothing visible through lookups, and all other keys are unaffected.", "quantifier": "every operation sequence from every starting material", "why_tests_cant": "histories of any length", "anchors": ["src/ENDFtk/tree/Material.hpp: insert, insertOrReplace, remove, replace", "src/ENDFtk/tree/File.hpp: insert, insertOrReplace, remove"]}
{"id": "C21", "title": "Tree content is ordered and complete", "statement": "In every reachable tree state section numbers and file numbers are strictly increasing, material numbers are non-decreasing, each stored file carries the MF under which it is stored and each section the MT, and content() is the concatenation of the section contents in that order with one FEND per non-empty file, one MEND per non-empty material and one TEND.", "quantifier": "every operation history", "why_tests_cant": "histories of any length", "anchors": ["src/ENDFtk/tree/Tape.hpp: content", "src/ENDFtk/tree/Material.hpp: content", "src/ENDFtk/tree/File.hpp: content"]}
{"id": "C22", "title": "Several materials with the same MAT", "statement": "Inserting a material never removes one: materials with equal MAT are kept in insertion order and counted by numberMAT; replace leaves exactly one; remove leaves none; other MATs keep their materials and order.", "quantifier": "every operation history on a tape", "why_tests_cant": "histories of any length", "anchors": ["src/ENDFtk/tree/Tape.hpp: insert, replace, remove, numberMAT"]}
{"id": "C23", "title": "A failed edit leaves the tree unchanged", "statement": "When insert or insertOrReplace of a section or file throws, content() and every lookup of (MF, MT) are as before; nothing at all changes unless the edit was a section for a file the material did not have: then an empty file of that number may be left behind.", "quantifier": "every state and every failing edit", "why_tests_cant": "all states", "anchors": ["src/ENDFtk/tree/Material.hpp: insert, insertOrReplace", "src/ENDFtk/tree/File.hpp"]}
{"id": "C24", "title": "Cleaning removes only sequence numbers", "statement": "clean() on a section whose lines all carry its MAT, MF, MT keeps columns 1-66 of every line (filled with blanks), writes MAT, MF, MT right-justified in columns 67-75 and blanks in 76-80, keeps the number of lines, ends with the SEND line and is idempotent; on a text already printed by the library it is the identity; clean() of a tape is clean() of its sections.", "quantifier": "every section content", "why_tests_cant": "all contents", "anchors": ["src/ENDFtk/tree/Section.hpp: clean"]}
{"id": "C25", "title": "What a failed clean() leaves", "statement": "clean() of a section throws std::exception exactly when a line before the last carries another MAT, MF or MT; then the content is not restored: the cleaned lines before that line remain, the rest is lost.", "quantifier": "every section content", "why_tests_cant": "all contents", "anchors": ["src/ENDFtk/tree/Section.hpp: clean"]}
{"id": "C26", "title": "updateDirectory makes the directory describe the material", "statement": "If MF1 MT451 is the first section of the material, has at least one line of description and numbers that fit their columns, then after updateDirectory the directory has exactly one entry for each section of the material, in ascending (MF, MT) order, with NC equal to the number of lines of that section excluding SEND, including the entry for MF1 MT451 itself. Without MF1 MT451 std::exception is thrown and nothing changes; without description lines NC of 451 is one too small, and if 451 is not the first section the entry of the first section is lost.", "quantifier": "every material containing MF1 MT451", "why_tests_cant": "all materials", "anchors": ["src/ENDFtk/tree/updateDirectory.hpp"]}
{"id": "C27", "title": "updateDirectory keeps modification numbers and is idempotent", "statement": "Under the conditions of C26: with the option to keep them, modification numbers of an old directory in ascending order are kept for the sections it lists and other sections get 0, without the option all are 0; applying updateDirectory twice equals applying it once; all other sections are untouched; when it fails the material is unchanged. Numbers of a directory that is not in ascending order may be lost. It is undefined behaviour exactly if the ZA of the HEAD record of MF1 MT451 does not fit in an int.", "quantifier": "every material containing MF1 MT451", "why_tests_cant": "all materials", "anchors": ["src/ENDFtk/tree/updateDirectory.hpp"]}
{"id": "C28", "title": "Malformed tapes are rejected", "statement": "Indexing throws std::exception when a tape has no TEND line, a material repeats a file number or a file repeats a section number, and indexing a section text throws when no SEND follows its records. A section without its own SEND inside a tape is not detected: it ends at the next line with MT 0, whatever material and file the lines before it carry; a tree file made from a text takes sections of other materials.", "quantifier": "every such text", "why_tests_cant": "all texts", "anchors": ["src/ENDFtk/tree/Tape/src/createMap.hpp", "src/ENDFtk/tree/Material/src/createMap.hpp", "src/ENDFtk/tree/File/src/createMap.hpp", "src/ENDFtk/tree/Section/src/findEnd.hpp"]}
{"id": "C29", "title": "Redundant end records are harmless", "statement": "Repeated SEND, FEND and MEND records in a tape are ignored by indexing: the tree is the same as for the tape with single ones.", "quantifier": "every well-formed tape and every number of repetitions at every place", "why_tests_cant": "unbounded repetitions and places", "anchors": ["src/ENDFtk/tree/File/src/createMap.hpp", "src/ENDFtk/tree/Material/src/createMap.hpp", "src/ENDFtk/tree/Tape/src/createMap.hpp"]}
{"id": "C30", "title": "Tree parse agrees with typed objects", "statement": "For a typed section, file or material with representable numbers, toSection/toFile/toMaterial succeed, the tree object has the same MAT, MF, MT, its content() is the printed text, and parse() of it gives back an equal typed object.", "quantifier": "every typed section, file and material whose numbers fit their columns", "why_tests_cant": "unbounded sizes", "anchors": ["src/ENDFtk/tree/toSection.hpp", "src/ENDFtk/tree/toFile.hpp", "src/ENDFtk/tree/toMaterial.hpp", "src/ENDFtk/tree/Section.hpp: parse"]}
{"id": "C31", "title": "Typed file round trip", "statement": "Printing a typed file (at least one section) and reading it back yields an equal file and consumes exactly the printed lines; sections given or read in any order are held, found and printed in ascending MT; a repeated section number is rejected both when constructing and when reading; every file that was read has its sections in ascending order, each with ZA >= 1, AWR >= 0.", "quantifier": "every typed file whose numbers fit their columns; every text for the rejections and the consistency", "why_tests_cant": "unbounded number of sections", "anchors": ["src/ENDFtk/file/Base.hpp", "src/ENDFtk/file/Type.hpp"]}
{"id": "C32", "title": "Typed material and tape round trip", "statement": "Printing a typed material (tape number 0: tape) with at least one file (material), none of them empty, and reading it back yields an equal material (tape); files are held and printed in ascending MF; repeated MF and unknown MF are rejected; a tape must hold at least one material; the lookups by MAT, MF, MT find exactly what is there.", "quantifier": "every typed material and tape whose numbers fit their columns", "why_tests_cant": "unbounded numbers of files and materials", "anchors": ["src/ENDFtk/Material.hpp", "src/ENDFtk/Tape.hpp"]}
{"id": "C33", "title": "Which files parsing then printing loses", "statement": "Parsing and printing a material does not keep all files: a file 30 is accepted and never printed; a file 8 that does not begin with section 454, 457 or 459 is read as empty, whatever its lines hold and whatever sections follow, up to and with its FEND (a HEAD, SEND, MEND or TEND of another file in its place is rejected, a line that is none of these is taken for the FEND); and an empty file is printed as a lone FEND line, on which reading the printed material again throws. All other files are kept (C32).", "quantifier": "every material; every text of a file 8 or 30", "why_tests_cant": "all materials", "anchors": ["src/ENDFtk/Material.hpp: print", "src/ENDFtk/file/30.hpp"]}
{"id": "C34", "title": "The tape number is lost, the rest of the tape survives", "statement": "The number on the tape identification line is not printed: a typed tape read, printed and read again has tape number 0; its identification text and its materials survive.", "quantifier": "every typed tape", "why_tests_cant": "all tapes", "anchors": ["src/ENDFtk/Tape.hpp: print", "src/ENDFtk/tree/Tape.hpp: content", "src/ENDFtk/TapeIdentification.hpp"]}
{"id": "C35", "title": "TAB1 constructor consistency check is exact", "statement": "For boundaries that are not empty and counts below 2^32, constructing a TabulationRecord succeeds iff x and y have equal length, x is non-decreasing, boundaries and interpolants have equal length, boundaries are non-decreasing and the last boundary equals the number of points; otherwise std::exception is thrown. Beyond 2^32 the counts are compared modulo 2^32, here and in sequences of records, flags are cut to 32 bits when read, boundaries of a TAB2 may be negative, and empty boundaries are undefined behaviour.", "quantifier": "all arguments, of any size", "why_tests_cant": "all argument vectors, including counts beyond 2^32", "anchors": ["src/ENDFtk/TabulationRecord/src/ctor.hpp", "src/ENDFtk/TabulationRecord/src/verifyNP.hpp"]}
{"id": "C36", "title": "MF1 MT451 round trip and directory size", "statement": "Printing a descriptive-data section whose description lines have 66 columns and reading it back yields an equal section, shorter lines come back padded with blanks; NC = 4 + NWD + NXC; the description given to the constructor is split into its lines and description() returns it line by line. A line of more than 66 columns is printed as a line that does not read back.", "quantifier": "every section 451 with any number of text and directory lines", "why_tests_cant": "unbounded sizes", "anchors": ["src/ENDFtk/section/1/451.hpp"]}
{"id": "C37", "title": "MF1 nubar sections (452, 455, 456) round trip", "statement": "Printing and reading back yields an equal section for both LNU/LDG representations, NC is exact, other LNU/LDG values are rejected.", "quantifier": "every such section", "why_tests_cant": "unbounded sizes", "anchors": ["src/ENDFtk/section/1/452.hpp", "src/ENDFtk/section/1/455.hpp", "src/ENDFtk/section/1/456.hpp"]}
{"id": "C38", "title": "Cross section sections (MF3, MF23, MF27) round trip", "statement": "Printing and reading back yields an equal section, NC = 1 + NC of the table.", "quantifier": "every such section", "why_tests_cant": "unbounded table sizes", "anchors": ["src/ENDFtk/section/3.hpp", "src/ENDFtk/section/23.hpp", "src/ENDFtk/section/27.hpp"]}
{"id": "C39", "title": "Section head validation", "statement": "A section of any class is never constructed with ZA < 1, AWR < 0 or (classes with a variable MT) MT < 1, neither from values nor from a text, nor (in the classes that check it) from a HEAD whose MAT or MF differ from those requested; 1/455, 2/151, 2/152, 7/2, 7/4, 7/451, 8/454, 8/457, 8/459, 32/151 and the classes of files 9, 10, 12, 13, 14 and 28 accept a HEAD of any MF. Every line of a section that is read carries its MT and the MAT it is read for, and the SEND line that MAT and MT 0; but 1/452, 1/456 and 7/451 expect the MT of the HEAD they are given, also where it is not theirs, and 2/152 and file 14 the MAT of the HEAD.", "quantifier": "every argument and text", "why_tests_cant": "all arguments", "anchors": ["src/ENDFtk/section.hpp: BaseWithoutMT, Base"]}
{"id": "C40", "title": "Sections must be closed by their own SEND", "statement": "Reading a section fails unless the line after its last record is a SEND record with the section's MAT and MF.", "quantifier": "every text", "why_tests_cant": "all texts", "anchors": ["src/ENDFtk/section.hpp: readSEND"]}
{"id": "C41", "title": "Truncated input is rejected", "statement": "A record read from a text with fewer lines than its counts call for is rejected; a section (of every class; for 32/151 on lines of 66 columns) that can be read from a text cannot be read from any prefix of it, cut anywhere, with fewer lines than were read, i.e. cut before the SEND line. A tape that can be indexed is rejected when its text is cut anywhere before the end of its TEND line, between lines or inside one, unless the cut is inside the TEND line and leaves columns 1 to 70 of it. A typed file (of any MF but 30) or a typed tape that can be read is not read from the first lines of its text if the line at which reading stopped (FEND, TEND) is not among them; a material is not read if it is cut inside a file, but its MEND line is not needed: cut behind any FEND it is accepted, without the files that follow. File 30 is read from any part of it. A tree file or section is not protected in the same way: a file cut behind a repeated SEND, or a section cut inside a line before its MT, is accepted.", "quantifier": "every text, every record and section class and every truncation point before the last line", "why_tests_cant": "all truncation points", "anchors": ["src/ENDFtk/record/Tail.hpp", "src/ENDFtk/record/Zipper/src/unzip.hpp", "src/ENDFtk/section.hpp: readSEND"]}
{"id": "C42", "title": "Values come from their columns", "statement": "When a LIST (TAB1, CONT) read succeeds, the k-th list value is the real in columns 11*(k mod 6)+1.. of line 1+k/6 of the input, and likewise for pairs, boundary indices and header fields.", "quantifier": "every input text and index", "why_tests_cant": "all texts and indices", "anchors": ["src/ENDFtk/record/Zipper/src/unzip.hpp", "src/ENDFtk/ListRecord.hpp"]}
{"id": "C74", "title": "Columns after 75 are not looked at", "statement": "Two texts whose lines agree in their first 75 columns - with other sequence numbers in columns 76-80, with none, or with anything at all after column 75 - are read alike by every record, by every section class, and as a file, a material and a tape: the same object or the same exception, the same line number, and what is left of the two texts agrees in the same way; also when reading fails in the middle, and for loops that do not end. Column 75 itself is looked at.", "quantifier": "all pairs of texts, every record, section class, file, material and tape, every line number, every HEAD and MAT", "why_tests_cant": "the texts may differ in any number of lines and by any characters, and the claim is about failures as well as successes, at every point of every reader", "anchors": ["src/ENDFtk/record/Tail.hpp", "src/ENDFtk/record/TailVerifying.hpp", "src/ENDFtk/section.hpp", "src/ENDFtk/file/Base.hpp", "src/ENDFtk/Material.hpp", "src/ENDFtk/Tape.hpp"]}
{"id": "C75", "title": "Blanks at the end of a line and the way MAT, MF and MT are written do not matter; clean() does not change what a section says", "statement": "Two lists of lines that agree in columns 1-66 once the shorter lines are filled with blanks, and of which columns 67-70, 71-72 and 73-75 read as the same numbers, are read alike by every record, every section class, and as a file, a material and a tape: the same value or exception, the same line number. Where INTG records (MF32 MT151) are read the lines must have 66 characters. Hence, for a section of which the lines carry its MAT, MF and MT and which is not empty, clean() succeeds, and parsing it gives an object if and only if the section ended with a SEND record and parsing the cleaned section gives that object. A file, a material or a tape of sections with lines of 66 characters that carry their numbers and a SEND line with blank columns gives the same object or the same exception when it is parsed before and after clean(). A material or a tape a program can obtain, of sections whose lines carry their numbers and end in any line read as SEND (zeros, for example), parses after clean() if and only if it parsed before, to the same sections under the same numbers.", "quantifier": "all pairs of lists of lines of any length, every record, section class, file, material and tape; for clean() every section text, class, MAT, MF and MT", "why_tests_cant": "the texts may differ in any number of lines and in any blanks, the claim is about failures as well as successes, and for clean() about every text that can be read as any of the 60 classes", "anchors": ["src/ENDFtk/tree/Section/src/clean.hpp", "src/ENDFtk/tree/Section/src/parse.hpp", "src/ENDFtk/record/Tail.hpp", "src/ENDFtk/record/Character.hpp", "src/ENDFtk/record/IntegerBase/src/readIntegers.hpp"]}
{"id": "C76", "title": "A tree depends on what it holds, not on the order of the edits", "statement": "Two files (materials, tapes) that a program can obtain and of which all lookups agree are the same and have the same content. Hence: two edits of different files of a material give the same tree and each throws or not alike, whichever is done first; sections with pairwise different (MF, MT) inserted (or inserted-or-replaced) in any order give the same material, every one is found and nothing is thrown; for materials inserted into a tape only the order among those with the same MAT matters; two histories of edits that agree as edits of finite maps end in the same tree. For two sections with the same MF and MT, two edits of one file, and two materials with the same MAT the order does matter.", "quantifier": "all files, materials and tapes a program can obtain, all pairs of edits, all lists of sections and of materials and all their permutations", "why_tests_cant": "the number of orders of a list of edits grows with its factorial, and the trees before them are unbounded", "anchors": ["src/ENDFtk/tree/File/src/insert.hpp", "src/ENDFtk/tree/Material/src/insert.hpp", "src/ENDFtk/tree/Tape/src/insert.hpp", "src/ENDFtk/tree/Material/src/insertOrReplace.hpp", "src/ENDFtk/tree/File.hpp", "src/ENDFtk/tree/Material.hpp", "src/ENDFtk/tree/Tape.hpp"]}
{"id": "C77", "title": "An edit changes only its own piece of the content", "statement": "The content of a material is, around the one section (MF, MT), two fixed texts: any material a program can obtain with the same MAT and the same other sections has a content with the same characters before and after the text of that section (the FEND of the file stands or falls with the file). The same for the materials of one number in a tape. Hence replacing a section exchanges exactly its text in the content of the material and of the tape around it, removing a section from a file that keeps another takes out exactly its text, and inserting a section into a file that has another adds exactly its text. Removing the last section of a file takes more than its text: the FEND goes too.", "quantifier": "all materials and tapes a program can obtain, all sections of them, all texts of the sections put in, MAT from 1 to 9999", "why_tests_cant": "the text before and after the piece is unbounded, and a stray change far from the edit shows in no test that looks at the edit", "anchors": ["src/ENDFtk/tree/Material/src/insertOrReplace.hpp", "src/ENDFtk/tree/Material/src/insert.hpp", "src/ENDFtk/tree/Material/src/remove.hpp", "src/ENDFtk/tree/File.hpp", "src/ENDFtk/tree/Material.hpp", "src/ENDFtk/tree/Tape.hpp"]}
{"id": "C43", "title": "The tapes accepted by indexing are exactly those of the grammar", "statement": "Indexing a tape text succeeds if and only if the text is a tape identification line followed by materials made of files made of sections (a HEAD line, lines with MT not 0, a line with MT 0), with extra end records where tolerated, and a TEND; on every other text it terminates with std::exception.", "quantifier": "every text", "why_tests_cant": "all texts", "anchors": ["src/ENDFtk/tree/Tape/src/createMap.hpp", "src/ENDFtk/tree/Material/src/createMap.hpp", "src/ENDFtk/tree/File/src/createMap.hpp", "src/ENDFtk/tree/Section/src/findEnd.hpp"]}
{"id": "C45", "title": "MF1 fission energy release and delayed photons (458, 460) round trip", "statement": "Printing and reading back gives an equal section for every representation (thermal point values, polynomial, up to nine tables; discrete, continuous), NC is exact; whatever is read is consistent (18 values, (NPLY+1)*18 values, each table in the slot of its IFC, NFC tables); repeated components are rejected.", "quantifier": "every section object and every text", "why_tests_cant": "unbounded tables and texts", "anchors": ["src/ENDFtk/section/1/458.hpp", "src/ENDFtk/section/1/458/src/readFissionEnergyReleaseData.hpp", "src/ENDFtk/section/1/458/TabulatedComponents/src/readTables.hpp", "src/ENDFtk/section/1/460.hpp"]}
{"id": "C44", "title": "Reading typed files and materials ends", "statement": "On every text in which no line has a first field outside the range of int, no SEND record of file 8 stands where a HEAD is expected, (when read as file 12) no HEAD has LO = 2, (when read as file 2, 6, 7, 8, 26, 31, 32, 33, 34, 35 or 40) the counts of the LIST records are in the range that the checks can handle and (when read as file 32) INTG records are on complete lines, reading a typed file or material ends, with an object or with std::exception, having consumed whole lines only. A tape without TEND record makes the reader of a tape read the end of the text forever, and a SEND record of file 8 taken for a HEAD makes the reader of file 8 run forever.", "quantifier": "every text", "why_tests_cant": "all texts; non-termination cannot be observed by a test", "anchors": ["src/ENDFtk/file/Base/src/read.hpp", "src/ENDFtk/Material/src/read.hpp", "src/ENDFtk/Tape/src/readMaterials.hpp", "src/ENDFtk/file/8/src/ctor.hpp", "src/ENDFtk/file/NotImplementedYet.hpp"]}
{"id": "C52", "title": "MF9 and MF10 radionuclide production round trip", "statement": "Printing and reading back a section of file 9 or 10 with representable numbers gives an equal section, NC is exact; a section without any reaction product is accepted and round trips too (the documented 'at least 1' is not enforced); looking up a final state gives the first product with that LFS and throws std::exception when there is none.", "quantifier": "every section object and every text", "why_tests_cant": "unbounded tables and texts", "anchors": ["src/ENDFtk/section/9.hpp", "src/ENDFtk/section/10.hpp"]}
{"id": "C53", "title": "MF12 to MF15 photon production round trip and consistency", "statement": "Printing and reading back a section of file 12, 13, 14 or 15 with representable numbers that satisfies what reading guarantees gives an equal section, NC is exact, and whatever is read satisfies it (a total exactly when there are several photons, isotropic photons first and the others all Legendre or all tabulated, NI, NK, LI and LTT agreeing with the photons). Transition probabilities give back the energies and probabilities they are made of. Reading transition probabilities with NT = 0 is undefined behaviour and reading is undefined in no other case; objects that cannot be read back (a total with one photon, mixed kinds of angular distributions) are accepted by the constructors; the photon energy of anisotropic photons is truncated to an integer.", "quantifier": "every section object and every text", "why_tests_cant": "unbounded tables and texts; undefined behaviour is not an observable failure", "anchors": ["src/ENDFtk/section/12.hpp", "src/ENDFtk/section/13.hpp", "src/ENDFtk/section/14.hpp", "src/ENDFtk/section/15.hpp", "src/ENDFtk/section/12/TransitionProbabilities.hpp", "src/ENDFtk/section/12/Multiplicities.hpp"]}
{"id": "C54", "title": "MF26 and MF28 electro-atomic data round trip", "statement": "Printing and reading back a section of file 26 or 28 with representable numbers gives an equal section, NC is exact and whatever is read is consistent (file 26: each multiplicity names the law of its distribution, list sizes equal to the counts; file 28: NW = 6 (NTR + 1)). The columns of a subshell are the values it was made of, and lists of different length are rejected. Reading file 26 is undefined behaviour only through the counts of a LIST record, and that does happen.", "quantifier": "every section object and every text", "why_tests_cant": "unbounded tables and texts", "anchors": ["src/ENDFtk/section/26.hpp", "src/ENDFtk/section/28.hpp", "src/ENDFtk/section/28/SubshellData.hpp"]}
{"id": "C47", "title": "MF4 angular distributions round trip and consistency", "statement": "Printing and reading back a section of file 4 (isotropic, Legendre, tabulated, mixed) with representable numbers gives an equal section and NC is exact. LTT is that of the HEAD, LCT the one of the second record, LI is set exactly for isotropic sections; whatever is read has one distribution per incident energy, and in a mixed section the last Legendre energy is the first tabulated one. NE, NR, NBT and INT of a mixed section describe the concatenation of its two parts.", "quantifier": "every section object and every text", "why_tests_cant": "unbounded tables and texts", "anchors": ["src/ENDFtk/section/4.hpp", "src/ENDFtk/section/4/src/ctor.hpp", "src/ENDFtk/section/4/src/readDistributions.hpp", "src/ENDFtk/section/4/MixedDistributions.hpp"]}
{"id": "C48", "title": "MF5 energy distributions round trip and consistency", "statement": "Printing and reading back a section of file 5 with representable numbers gives an equal section and NC is exact for every law (LF = 1, 5, 7, 9, 11, 12); whatever is read has at least one partial distribution, as many as the HEAD says, each with the LF of its probability; the constructor of a partial distribution rejects any other LF.", "quantifier": "every section object and every text", "why_tests_cant": "unbounded tables and texts", "anchors": ["src/ENDFtk/section/5.hpp", "src/ENDFtk/section/5/PartialDistribution.hpp", "src/ENDFtk/section/5/PartialDistribution/src/readPartialDistribution.hpp"]}
{"id": "C49", "title": "MF6 product energy-angle distributions round trip and consistency", "statement": "Printing and reading back a section of file 6 (laws 0 to 7, and the negative laws in section 18) with representable numbers that satisfies what reading guarantees gives an equal section and NC is exact. Whatever is read satisfies it: as many products as the HEAD says, each multiplicity naming the law of its distribution, as many records as each TAB2 announces, secondary energies in ascending order, list sizes equal to the counts. A product is constructed exactly when the laws agree; looking up a ZAP gives the first product with it or throws. The constructors from parts (Legendre, tabulated, amplitudes) give back the parts. Reading is undefined behaviour only through the counts of a LIST record (ND or NA out of range, arithmetic on int that overflows), and that does happen; a negative law is constructed for every section although only section 18 can be read with one.", "quantifier": "every section object and every text", "why_tests_cant": "unbounded tables and texts; undefined behaviour is not an observable failure", "anchors": ["src/ENDFtk/section/6.hpp", "src/ENDFtk/section/6/ReactionProduct/src/readDistribution.hpp", "src/ENDFtk/section/6/ContinuumEnergyAngle/Base/src/ctor.hpp", "src/ENDFtk/section/6/ChargedParticleElasticScattering.hpp", "src/ENDFtk/section/6/DiscreteTwoBodyScattering.hpp", "src/ENDFtk/section/6/LaboratoryAngleEnergy.hpp"]}
{"id": "C55", "title": "MF31, MF33, MF34, MF35 and MF40 covariances round trip and consistency", "statement": "Printing and reading back a covariance section with representable numbers gives an equal section and NC is exact, for every kind of explicit (LB = 0 to 6, 8, 9) and derived (LTY = 0 to 3) covariances. Whatever is read is consistent: as many blocks as announced, list sizes equal to the counts (pairs 2 NP, square matrices NE + NE (NE - 1) / 2 or NE + (NE - 1)^2, rectangular 1 + NER NEC, MF34 blocks NL (NL + 1) / 2 or NL NL1). The constructors from parts give back the parts, except the column energies of a rectangular matrix, which come back followed by the values. Reading is undefined behaviour only through the counts of the records (NER = 0, arithmetic on int that overflows, XMF1 out of the range of int), and that does happen; a ratio with any LTY is constructed, LT larger than NP is accepted, the energy range of an MF35 matrix is returned truncated, a negative number of NC parts reads as none.", "quantifier": "every section object and every text", "why_tests_cant": "unbounded matrices and texts; undefined behaviour is not an observable failure", "anchors": ["src/ENDFtk/section/31.hpp", "src/ENDFtk/section/33.hpp", "src/ENDFtk/section/34.hpp", "src/ENDFtk/section/35.hpp", "src/ENDFtk/section/40.hpp", "src/ENDFtk/section/ReactionBlock.hpp", "src/ENDFtk/section/CovariancePairs.hpp", "src/ENDFtk/section/SquareMatrix.hpp", "src/ENDFtk/section/RectangularMatrix.hpp", "src/ENDFtk/section/DerivedRatioToStandard.hpp"]}
{"id": "C51", "title": "MF8 fission yields and decay data round trip and consistency", "statement": "Printing and reading back a section 454, 457 or 459 of file 8 with representable numbers gives an equal section and NC is exact. Whatever is read is consistent: 4 numbers for each fission product, 3 or 17 average energies, 6 numbers for each decay mode (6 also for none), 4, 6 or 12 numbers for each discrete spectrum, as many discrete spectra as announced, a continuous spectrum exactly when LCON is not 0. The constructors from parts give back the parts (identifiers, states, yields at each energy and interpolation; energies; modes; spectra), accept every consistent input and reject yields of different length. Reading is undefined behaviour only through a number of products or modes whose multiple overflows, and that does happen. The stability flag of the HEAD is ignored; decay modes made of an empty list throw; a stable nuclide has one decay mode although it announces none; a decay spectrum with too short a list is accepted, and its accessors are undefined.", "quantifier": "every section object and every text", "why_tests_cant": "unbounded lists and texts; undefined behaviour is not an observable failure", "anchors": ["src/ENDFtk/section/8/454.hpp", "src/ENDFtk/section/8/457.hpp", "src/ENDFtk/section/8/459.hpp", "src/ENDFtk/section/8/FissionYieldData.hpp", "src/ENDFtk/section/8/454/src/generateFissionYields.hpp", "src/ENDFtk/section/8/457/DecayModes.hpp", "src/ENDFtk/section/8/457/DecaySpectrum.hpp", "src/ENDFtk/section/8/457/DiscreteSpectrum.hpp"]}
{"id": "C50", "title": "MF7 thermal scattering round trip and consistency", "statement": "Printing and reading back a section 2, 4 or 451 of file 7 with representable numbers gives an equal section and NC is exact: coherent, incoherent and mixed elastic scattering; analytical and tabulated scattering laws; any number of elements. Whatever is read is consistent: one LIST record for each further temperature, with as many values as energies (coherent elastic), the same beta (scattering function), six constants per scatterer, an analytical law exactly when the first constant is zero, an effective temperature exactly for the non-principal scatterers of kind 0, six numbers per isotope. The constructors from parts give back the parts and accept every consistent input. Reading section 2 is defined for every text; reading section 4 or 451 is undefined behaviour only through the counts of a LIST record, and that does happen. Too few temperature interpolations make the constructor of coherent elastic data undefined, too many are dropped; the number of values of a scattering function at further temperatures is not checked; a law that does not go with the constants is accepted by the constructor and cannot be read back; an element without isotopes is accepted, and most of its columns are undefined.", "quantifier": "every section object and every text", "why_tests_cant": "unbounded tables and texts; undefined behaviour is not an observable failure", "anchors": ["src/ENDFtk/section/7/2.hpp", "src/ENDFtk/section/7/2/CoherentElastic.hpp", "src/ENDFtk/section/7/4.hpp", "src/ENDFtk/section/7/4/TabulatedFunctions/ScatteringFunction.hpp", "src/ENDFtk/section/7/4/ScatteringLawConstants.hpp", "src/ENDFtk/section/7/4/src/readSecondaryTemperatures.hpp", "src/ENDFtk/section/7/451.hpp", "src/ENDFtk/section/7/451/ElementInformation.hpp"]}
{"id": "C46", "title": "MF2 resonance parameters round trip and consistency", "statement": "Printing and reading back a section 151 or 152 of file 2 with representable numbers gives an equal section and NC is exact: any number of isotopes and energy ranges; special case, single- and multi-level Breit-Wigner, Reich-Moore and R-matrix limited resolved ranges (with tabulated, Sammy, Frohner or no background elements for each channel), unresolved ranges of case A, B and C, tables of scattering radii. Whatever is read is consistent: at least one isotope, l value, spin and spin group, six numbers for each resonance (twelve for each particle pair), the same energies for all spins of case B, as many background slots as channels with every element in the slot of its own channel, NAPS in its range, no table of radii for the special case and R-matrix limited, LFW deciding between case A and B for all ranges. Constructors refuse columns of different or zero length; accessors return the columns they were given, including integers stored as reals and resonance parameters padded to whole lines; the target spin is that of the first pair with MT = 2. Reading a text never has undefined behaviour unless a count overflows, a spin of case B or C has fewer than six numbers, or ZAI does not fit an int.", "quantifier": "every section object and every text", "why_tests_cant": "unbounded numbers of isotopes, ranges, resonances, channels and texts; undefined behaviour is not an observable failure", "anchors": ["src/ENDFtk/section/2/151.hpp", "src/ENDFtk/section/2/151/Isotope.hpp", "src/ENDFtk/section/2/151/ResonanceRange.hpp", "src/ENDFtk/section/2/151/ReichMoore.hpp", "src/ENDFtk/section/2/151/RMatrixLimited.hpp", "src/ENDFtk/section/2/151/RMatrixLimited/SpinGroup.hpp", "src/ENDFtk/section/2/151/RMatrixLimited/BackgroundChannels/src/readBackgroundMatrices.hpp", "src/ENDFtk/section/2/151/UnresolvedEnergyDependent.hpp", "src/ENDFtk/section/2/152.hpp"]}
{"id": "C56", "title": "MF32 resonance parameter covariances round trip and consistency", "statement": "A section 32/151 with representable numbers (limited, general, compact and unresolved covariances, all formalisms, with or without covariances of the scattering radius) is written in NC() lines, and reading these lines gives back an equal section and stops behind its SEND record; every section that was read satisfies the counts its constructors check; when the INTG records are on complete lines and the counts are in the range that the checks can handle, reading consumes whole lines and ends with a section or std::exception. A compact correlation matrix of any correlations (NDIGIT not 3, rows and columns ascending) comes back with every value within one unit of the last of NDIGIT digits and the small ones dropped; NDIGIT = 3, a correlation of -1 and indices out of order do not survive. Constructors give back the columns they are given; unequal lengths are refused, except in R-matrix limited parameters and for the limited uncertainties, where they are undefined behaviour or accepted. The line counter is ahead by one for every resonance range. The uncertainty of the radius of an R-matrix limited range can be written but not read.", "quantifier": "every section 32/151; every text", "why_tests_cant": "The classes nest in eleven combinations and the correlation matrix is stored in a lossy packed form; no list of examples covers the values and layouts.", "anchors": ["src/ENDFtk/section/32/151.hpp", "src/ENDFtk/section/32/151/CompactCorrelationMatrix/src/compact.hpp", "src/ENDFtk/section/32/151/Isotope/src/readRanges.hpp", "src/ENDFtk/section/32/151/GeneralCovarianceBase/src/ctor.hpp"]}
{"id": "C57", "title": "The HEAD record of a section describes its contents", "statement": "The first line printed for a section of any class holds ZA and AWR in columns 1-22, the flags and counts the ENDF format gives for the contents (number of isotopes, of partial distributions, of products, of photons, of subsections, of levels, of incident energies; LNU, LDG, LFC, LO, LTT, LTHR, LAT, LASYM, LCT, JP, LIS, LISO, NST, MTL, LSSF, LI) in columns 23-66 and MAT, MF, MT in columns 67-75. For transition probabilities of file 12 the number of levels NS is always printed as NT + 2. Conversely, from any text that is read, the flags of the object are those of the HEAD, the alternative chosen is the one its flag names and the number of parts read is the one its count says; NST of 8/457 and all but LO of transition probabilities are not looked at.", "quantifier": "every section object of every class; every text", "why_tests_cant": "the flags and counts that the reader of the library ignores are not checked by reading back", "anchors": ["src/ENDFtk/section/12/src/print.hpp", "src/ENDFtk/section/14/src/print.hpp", "src/ENDFtk/section/4/src/print.hpp", "src/ENDFtk/section/8/457/src/print.hpp", "src/ENDFtk/section/33/src/print.hpp"]}
{"id": "C58", "title": "Control records inside a section describe their part", "statement": "Every CONT record inside a section of files 2, 4, 14, 31, 32, 33, 34 and 40 (isotope, energy range, parameter set, l-value, spin group, background R-matrix entry; limited, general and unresolved covariances and their radius uncertainty and second records; covariance subsection, derived NC block, angular subsections; isotropic photon) holds the energies, radii, flags and counts of its part in the columns of the ENDF format with MAT, MF, MT after them: for any text that is read, the object has the values of the first line of its part, the alternative its flags name and as many parts as its counts say; for any object that is printed, the first line of its part has its values.", "quantifier": "every text, every component object", "why_tests_cant": "reading back cannot see columns that are exchanged in the same way by the reader and the printer, and examples show only their own numbers", "anchors": ["src/ENDFtk/section/2/151.hpp", "src/ENDFtk/section/32/151.hpp", "src/ENDFtk/section/33.hpp", "src/ENDFtk/section/34.hpp", "src/ENDFtk/section/DerivedRatioToStandard.hpp", "src/ENDFtk/section/4.hpp", "src/ENDFtk/section/14.hpp"]}
{"id": "C59", "title": "Row objects and column arrays show the same numbers", "statement": "For every component that was read or made, the sequence of row objects (resonances of File 2 Breit-Wigner and Reich-Moore l-values, of File 32 limited, general and compact covariances; spins of the energy-independent unresolved parameters of Files 2 and 32; transitions of File 12 and 28; fission products of File 8) has as many elements as the count in the record, every column accessor can be evaluated and has as many values, and the n-th value of a column is what the n-th row object returns under the same name; the competitive width is the same difference both ways; degrees of freedom absent from the format are zero in both. When NPL of transition probabilities is not a multiple of NT there is one more transition than NT, without a probability.", "quantifier": "every list record accepted by the classes of these components", "why_tests_cant": "the two views are computed by different index arithmetic over a list of any length; examples test a few rows", "anchors": ["src/ENDFtk/section/2/151/BreitWignerLValue/Resonance.hpp", "src/ENDFtk/section/2/151/UnresolvedEnergyIndependent/JValue.hpp", "src/ENDFtk/section/32/151/LimitedBreitWignerLValue/Resonance.hpp", "src/ENDFtk/section/32/151/CompactReichMooreUncertainties/Resonance.hpp", "src/ENDFtk/section/12/TransitionProbabilities/Transition.hpp", "src/ENDFtk/section/8/FissionYieldData/FissionProduct.hpp"]}
{"id": "C60", "title": "Named constructor arguments come back under the same names", "statement": "For every class made of one table, one list, one control record or a sequence of these behind an interpolation table (reaction products of 9 and 10, multiplicities of 6, 12, 13 and 26, distributions and spectra of 4, 5, 6, 14 and 26, photons and energy release of 1, decay spectra, radii, the sections of 3, 23 and 27), the constructor with named arguments accepts exactly the valid curves (same numbers of abscissae and ordinates, ascending abscissae, ascending boundaries, as many interpolants, last boundary equal to the number of points or records) and throws std::exception for any other; each accessor of the object returns the argument of the same name, integers that pass through a double included; printing and reading the object changes none of them. A continuum distribution of file 6 is only made of distributions of one LANG, and is undefined behaviour without any; the charge number of a section of file 27 is ZA / 1000 when made from values and unchecked when read.", "quantifier": "every set of arguments; every table length", "why_tests_cant": "a pair of fields exchanged both in the constructor and in the accessors is invisible to examples with equal values, and lengths are unbounded", "anchors": ["src/ENDFtk/section/9/ReactionProduct/src/ctor.hpp", "src/ENDFtk/section/3/src/ctor.hpp", "src/ENDFtk/section/27/src/ctor.hpp", "src/ENDFtk/section/4/AngularDistributions/src/ctor.hpp", "src/ENDFtk/section/6/Multiplicity.hpp", "src/ENDFtk/section/6/ContinuumEnergyAngle/src/ctor.hpp", "src/ENDFtk/section/1/458/EnergyReleaseComponent/src/ctor.hpp"]}
{"id": "C61", "title": "Equality of records", "statement": "Two control, list, interpolation, table, text or directory records compare equal with == exactly when every field is (numbers by value); == is reflexive, symmetric and transitive and != is its negation. Every number read from a tape is a finite double, and equal records of such numbers without negative zeros are identical, so they print the same lines; a record with a negative zero is equal to the one with zero and prints another line. A record read back from its own lines compares equal to the original exactly when every number in it is the number its own eleven columns stand for; a text shorter than 66 columns comes back padded and unequal.", "quantifier": "every pair of records; every list length", "why_tests_cant": "equality ranges over all pairs of values and lengths of arrays; agreement of a comparison with printing is a statement about all doubles", "anchors": ["src/ENDFtk/record/Base.hpp", "src/ENDFtk/ListRecord.hpp", "src/ENDFtk/TabulationRecord.hpp", "src/ENDFtk/record/InterpolationBase.hpp", "src/ENDFtk/TextRecord.hpp", "src/ENDFtk/DirectoryRecord.hpp"]}
{"id": "C62", "title": "Reading a whole tape and indexing it agree", "statement": "For a tape in which every section, file and material is closed by exactly one end record (no file 30, a file 8 beginning with section 454, 457 or 459, the line that closes a section of file 32 having at least 66 columns): the typed reader of the whole tape succeeds exactly when every section in the tree index parses on its own with the class for its MF and MT; then both hold the same identification and the same materials in the same order, a file or section is present in one exactly when it is present in the other, and each typed section is the one obtained by parsing the section of the tree. What a section reader returns depends on the lines of that section only, whatever follows them on the tape. Every well-formed typed tape prints as such a tape. Outside these tapes the two disagree: the typed reader merges files with different MAT numbers before one MEND, files a section under the file it is reading even if its HEAD names another MF, makes an empty material of a repeated MEND, and rejects repeated or missing end records the tree tolerates.", "quantifier": "every tape text of that form, every material, file and section in it, every number of lines", "why_tests_cant": "agreement of two independent readers must hold for all tapes, all section contents and everything that may follow a section in the file; tests compare a few tapes", "anchors": ["src/ENDFtk/Tape/src/readMaterials.hpp", "src/ENDFtk/Material/src/read.hpp", "src/ENDFtk/file/Base/src/read.hpp", "src/ENDFtk/tree/Tape.hpp", "src/ENDFtk/tree/Section/src/parse.hpp"]}
{"id": "C63", "title": "The nine energy release components by name", "statement": "In MF1 MT458 the nine components (fission fragments, prompt and delayed neutrons, prompt and delayed gammas, delayed betas, neutrinos, total less neutrinos, total) given to a constructor come back, value and uncertainty, from the accessor of the same name in all three representations (thermal point, polynomial, tables), also after the section is printed and read; for a list that was read accessor k shows the numbers of component k. Polynomials with components of different sizes are refused. Two exceptions: a polynomial of order 0 is read back as a thermal point evaluation (with the same values), and nine empty components are accepted, with order -1 and undefined accessors.", "quantifier": "every value and uncertainty, every polynomial order, every set of tables, every list that can be read", "why_tests_cant": "the layout is an index calculation over an unbounded list (chunks of 2, stride 9); tests look at one or two orders", "anchors": ["src/ENDFtk/section/1/458/ThermalPointComponents.hpp", "src/ENDFtk/section/1/458/PolynomialComponents.hpp", "src/ENDFtk/section/1/458/PolynomialComponents/src/generateList.hpp", "src/ENDFtk/section/1/458/PolynomialComponents/src/createRangeFromIndex.hpp", "src/ENDFtk/section/1/458/TabulatedComponents.hpp"]}
{"id": "C64", "title": "The records of MF6 LAW = 1 by name", "statement": "A tabulated angular distribution record (LANG 11 to 15) made from energies, total probabilities and, per energy, cosines and probabilities, gives each of them back under its name; it is accepted when the lists have one entry per energy, each set has NA/2 ascending cosines and as many probabilities, the energies after the discrete ones ascend and LANG is allowed, and refused when sizes differ or cosines descend; for a record that was read cosine j and probability j of energy i are the numbers at their places in row i. A thermal scattering record shows its energies, probabilities and cosines row by row, and one made from cosines shows these with probability 1 and representation 6. A thermal record with zero angles is read without complaint although looking at its energies, its number of energies or its representation is then undefined.", "quantifier": "every energy grid, every number of angles, every set of cosines and probabilities, every list that can be read", "why_tests_cant": "the layout is an index calculation over an unbounded list (chunks of 2 + NA, strides of 2 in each); tests look at one or two sizes", "anchors": ["src/ENDFtk/section/6/ContinuumEnergyAngle/TabulatedDistribution.hpp", "src/ENDFtk/section/6/ContinuumEnergyAngle/TabulatedDistribution/src/generateList.hpp", "src/ENDFtk/section/6/ContinuumEnergyAngle/ThermalScatteringData.hpp", "src/ENDFtk/section/6/ContinuumEnergyAngle/ThermalScatteringData/src/generateList.hpp"]}
{"id": "C65", "title": "Sections made from their parts", "statement": "Every constructor of a section class from its parts accepts exactly the identifications with ZA at least 1, AWR not negative and, for the classes that take one, MT at least 1, and contents the class accepts; the section then has that ZA, AWR and MT (the fixed one for the classes that have one) and the contents that were given, and otherwise the constructor throws a std::exception. If the contents meet the requirements of the class and fit the columns, printing the section and reading it gives the same section; a section survives that only if its contents meet the requirements, so a total with a single partial cross section in File 13, photons of two kinds in File 14 and a File 34 block made for another MT, all accepted by the constructors, do not survive. Every section that can be read can be made except, in 1/451, 2/152 and Files 3, 23 and 27, those with something in a field that has no name, 2/152 sections that do not have five reactions and counts that are not negative, and a File 33 section that is lumped into another reaction and still has reactions. The covariance blocks and the composite parameter sets count what they are given.", "quantifier": "every constructor of every section class, every MT, ZA and AWR, all contents", "why_tests_cant": "the contents are unbounded lists of objects of many types and the identification is any triple; tests make one object per class", "anchors": ["src/ENDFtk/section/Base.hpp", "src/ENDFtk/section/13/src/ctor.hpp", "src/ENDFtk/section/14/src/ctor.hpp", "src/ENDFtk/section/33/src/ctor.hpp", "src/ENDFtk/section/34/ReactionBlock/src/ctor.hpp"]}
{"id": "C66", "title": "Parsing a whole tree", "statement": "However a tree was put together (indexed from a text, edited, cleaned): parsing a material, a file or the whole tape of a tree succeeds exactly when each of its sections parses on its own with the class for its MF and MT, and the typed object then holds the same identification and the same materials in the same order, and exactly these sections, each the one obtained by parsing that section alone. This holds although the text of the tape itself may be one the typed reader refuses (repeated SEND or FEND records, files out of order). Sections, and the identification, taken from a tape that was read always meet the requirements. For a tape that both can read, reading the text and parsing its index give the same. Files and materials without sections are lost, and a tape with no others does not parse. fromFile on a file that cannot be opened throws, otherwise it is the index of the text in it.", "quantifier": "every tree that can be made by indexing and editing (no file 30, a file 8 beginning with section 454, 457 or 459, the text of a section of file 32 ending in a line of at least 66 columns), every text on a disk", "why_tests_cant": "the histories of a tree and the texts of its sections are unbounded; parsing goes through the text of the whole tree, so agreement with its sections is a statement about every combination of them", "anchors": ["src/ENDFtk/tree/Tape/src/parse.hpp", "src/ENDFtk/tree/Material/src/parse.hpp", "src/ENDFtk/tree/File/src/parse.hpp", "src/ENDFtk/tree/fromFile.hpp", "src/ENDFtk/tree/Tape.hpp"]}
{"id": "C67", "title": "The description section by name", "statement": "Every quantity that a named accessor of section 1/451 shows (LRP, LFI, NLIB, NMOD, ELIS, STA, LIS, LISO, NFOR, AWI, EMAX, LREL, NSUB, NVER, TEMP, RTOL, LDRV, the directory) is the one given to the constructor under that name. In any text that is read it is the number in the columns that the ENDF-6 manual gives it: the first three records after the HEAD, then NWD lines of text, then NXC directory lines, all carrying MAT, 1 and 451; the text that is printed is laid out in the same way, and reading it gives the section again. isFissile() answers LFI. isStable() does not answer the question in its name: it is true exactly if STA is not zero, that is for the unstable targets.", "quantifier": "every text from which a section 1/451 is read, and every set of constructor arguments (with flags in the range of int; numbers that fit their columns for the printed text)", "why_tests_cant": "seventeen named quantities, two lists of any length and the text around them: a test shows one assignment of values, and a pair of equal values hides an exchange", "anchors": ["src/ENDFtk/section/1/451.hpp", "src/ENDFtk/section/1/451/src/ctor.hpp", "src/ENDFtk/section/1/451/src/makeParameters.hpp", "src/ENDFtk/section/1/451/src/readParameters.hpp", "src/ENDFtk/section/1/451/src/print.hpp"]}
{"id": "C68", "title": "The sequences of the Python module", "statement": "The views that the Python module returns behave as sequences of the Python language: len() is the number of elements that iteration yields, in the order of to_list(); view[i] with an int i is the element i, counted from the end if i is negative, and IndexError for every other i; view[i:j:k] is the list that the language reference names, for every i, j and k, present or not, negative, beyond the ends or beyond 64 bits, and ValueError if k is zero. Not so: an index that is not an int of 32 bits is a TypeError where a list raises IndexError; in a view of 2^31 elements or more view[-1] is an IndexError, and a slice of 2^32 elements or more never ends; front() of an empty view is undefined; copy() of a bidirectional view (the sections of a file, the files of a material, the materials of a tape) always raises TypeError.", "quantifier": "every sequence of fewer than 2^31 elements, every integer and every slice", "why_tests_cant": "sequences, indices and slices are unbounded, and the loop works with wrapped unsigned numbers for negative steps; a test tries a few indices of one view", "anchors": ["python/src/views.hpp"]}
{"id": "C69", "title": "A tree edited with typed sections, files and materials", "statement": "insert, insertOrReplace and replace of a tree take typed sections, files and materials as well. After any history of such edits of a material, and of removals, every section of the material parses as the typed section last put under its MF and MT, and there are no others; an insertion over a section or file that is there throws and leaves everything seen as it was, as does a section of another MF put into a file, or an edit of a file that is not there. Parsing the edited material as a whole gives exactly these sections. A tape after any history of insert, replace and remove of typed materials holds under each number materials that parse as the given ones, in the order of insertion.", "quantifier": "every history of typed edits of every tree that the library builds; every section, file and material that can be written exactly", "why_tests_cant": "histories and contents are unbounded", "anchors": ["src/ENDFtk/tree/File/src/insert.hpp", "src/ENDFtk/tree/File/src/insertOrReplace.hpp", "src/ENDFtk/tree/Material/src/insert.hpp", "src/ENDFtk/tree/Material/src/insertOrReplace.hpp", "src/ENDFtk/tree/Tape/src/insert.hpp", "src/ENDFtk/tree/Tape/src/replace.hpp", "src/ENDFtk/tree/toSection.hpp", "src/ENDFtk/tree/toFile.hpp", "src/ENDFtk/tree/toMaterial.hpp"]}
{"id": "C70", "title": "A tree written out and read in again", "statement": "The content of a file, a material or a tape of the tree, edited in any way, is read in again as the same tree: the same numbers, the same sections text for text, the materials of a number in their order, and writing it out once more gives the same text. Files and materials without sections are not written and so not read. After any history of edits with typed sections, every section read in again still parses as the section that was put there. Not so: a material without sections is written as nothing, and nothing is read as material 0; the number of the tape is not written.", "quantifier": "every tree the library builds whose sections are texts of their own (a HEAD line with their numbers, no end line before their last line) and whose material numbers have at most four digits", "why_tests_cant": "trees and histories are unbounded; a test reloads one tape", "anchors": ["src/ENDFtk/tree/File.hpp", "src/ENDFtk/tree/Material.hpp", "src/ENDFtk/tree/Tape.hpp", "src/ENDFtk/tree/File/src/createMap.hpp", "src/ENDFtk/tree/Material/src/createMap.hpp", "src/ENDFtk/tree/Tape/src/createMap.hpp"]}
{"id": "C71", "title": "The tree, the strings and the files of the Python module", "statement": "In Python, parse() of a tree section gives what the class for its MF and MT reads and raises an exception if there is none; parse() of a tree file and of a tree material gives exactly the sections that parse() of each tree section gives; material(mat) of a tape gives the material itself if there is one, a sequence if there are more, and raises IndexError if there is none. from_string of a section, a file and a material gives back what to_string printed, whatever follows it in the string. to_file and from_file give back the tape, and no other file changes. Not so: to_file into a file that cannot be opened reports nothing; a tape without content empties the file before it raises.", "quantifier": "every tree section, file, material and tape; every well-formed section, file and material of the library; every disk", "why_tests_cant": "trees, strings and disks are unbounded; a test round-trips one of each", "anchors": ["python/src/tree/Section.python.cpp", "python/src/tree/File.python.cpp", "python/src/tree/Material.python.cpp", "python/src/tree/Tape.python.cpp", "python/src/read.hpp", "python/src/print.hpp", "python/src/definitions.hpp", "python/src/Material.python.cpp"]}
{"id": "C72", "title": "Editing and cleaning inside a tape", "statement": "material(mat) of a tape gives references to the materials with that number, file(mf) and section(mt) to their parts. An edit through such a reference changes that one material as the same edit changes a material on its own, and nothing else on the tape: other materials, also those with the same number, their order and their look-ups are as before. Cleaning a section, a file, a material or the tape through a reference cleans the sections of that part in the order of MAT, position, MF and MT: all of them, or those before the first one that cannot be cleaned, which is left as its failed clean() leaves it, the later ones being untouched, with its exception. A number, file or section that is not there is std::out_of_range and nothing changes; an index beyond the materials with that number is undefined. This determines the look-ups and the exceptions of every history; the tapes it makes and the materials found in them have the properties C20, C21 and C70.", "quantifier": "every tape the library builds, every history of insertions, replacements, removals, edits and cleanings through references, every index", "why_tests_cant": "histories, tapes and section texts are unbounded", "anchors": ["src/ENDFtk/tree/Tape.hpp", "src/ENDFtk/tree/Tape/src/material.hpp", "src/ENDFtk/tree/Material/src/file.hpp", "src/ENDFtk/tree/File/src/section.hpp", "src/ENDFtk/tree/Tape/src/clean.hpp", "src/ENDFtk/tree/Material/src/clean.hpp", "src/ENDFtk/tree/File/src/clean.hpp"]}
{"id": "C73", "title": "Printing what was read is stable", "statement": "A section, file, material or tape whose integers fit their columns and whose numbers are zero or between about 1e-297 and 1e298 in size, but need not be ENDF numbers, is printed; the text is always read back, and gives the same object with every number replaced by the one its eleven printed columns read as. Printing that object gives the same text again, character for character, with the same number of lines. Every order or equality the constructors check survives the rounding: no section that can be made or read becomes unreadable because printing rounded it. Rounding happens once: a rounded number is an ENDF number and rounds to itself. Thus read, print, read, print gives the same text from the first print on.", "quantifier": "every section class of the library, every section, file, material and tape with ordinary numbers, every following text", "why_tests_cant": "the doubles, section sizes and nestings are unbounded; that every check in every section constructor is preserved by decimal rounding is a statement about all values", "anchors": ["src/ENDFtk/section.hpp", "src/ENDFtk/file/Base.hpp", "src/ENDFtk/Material.hpp", "src/ENDFtk/Tape.hpp", "src/ENDFtk/ListRecord.hpp", "src/ENDFtk/TabulationRecord.hpp"]}
