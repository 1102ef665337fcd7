# Formal model of DBHeise/fileid

The source in `/repo/fileid` is read as text and modelled function by function in
Gallina (Coq 8.16.1).  The proofs are about that model; the tie to the C++ is the
citation on each definition plus the fidelity rules below.

## Fidelity rules

* **Outcomes.**  A C++ computation is modelled as `res A` (`Lib/Res.v`):
  `Ok a` (normal return), `Throw e` (C++ exception), `UB` (undefined behaviour: an
  access outside the object the pointer refers to, a bad shift, an invalid
  float-to-integer conversion, ...) and `Fuel` (the explicit recursion bound was
  exhausted; never a normal value).  Non-termination is stated as "for every fuel the
  result is `Fuel`"; termination as "for some computable fuel it is not".
* **Bytes.**  Files, buffers and `std::string` are `list byte` (`Coq.Init.Byte`), so a
  byte is in 0..255 by construction.  A buffer access goes through `rd`/`slice`, which
  yield `UB` outside the list.
* **Integers.**  `N`/`Z` with the wrap of the C++ type (`mod 2^16`, `2^32`, `2^64`)
  written explicitly wherever the C++ expression can wrap.
* **Platforms.**  The project is built for LP64 Linux (makefile) and for Windows
  (vcxproj).  Where `sizeof(unsigned long)` or `sizeof(wchar_t)` matters the model takes
  a `platform` record; both instances are covered.
* **Files.**  The file system is a function from the path to the bytes of the file
  (`None` if it cannot be opened).  Concurrent modification and short reads are not
  modelled.
* **Library code.**  iostream formatting, `gmtime_r`, `std::vector`, `std::map` are
  modelled by their documented results.  The zip library (a missing submodule) is
  represented by the list of entries it would return.

## Properties and plan

One section per area; each area has a `Model.v` (cited definitions only), a `Spec.v`
(the vocabulary of the theorem statements, independent of the model), proof files, and a
`Properties.v` that contains only theorem statements closed by `exact`, the examples
showing the hypotheses are met, and `Print Assumptions`.

| id | modelled by | how it is proved |
|----|-------------|------------------|
| C01 | `Common/Model.v` ReadUShort/ReadSShort on `list byte` | bit operations reduced to arithmetic, equality with `le`/`be` of the two bytes |
| C02 | same, with `UB` outside the list and u32 wrap of `offset+1`, `offset+3` | complete case split of the outcome; refutation with a one-byte buffer |
| C03 | ReadUInt/ReadSInt | the value is proved to be the opposite byte order for all inputs; refutation |
| C04 | ReadULong (platform), ReadULongLong | outcome characterised for all offsets |
| C05 | ReadString, ReadFloat, ReadDouble (bit patterns) with u32 wrap | safe iff no wrap; refutation near 2^32 |
| C06 | checkMagic with its min/max swap | iff with "pattern is a prefix of the buffer at offset" |
| C07 | JsonEscape | decoder written in Spec from RFC 8259; round trip by induction; NUL truncation refuted |
| C08 | XmlEscape | decoder of character references; shown equal to the input with `<`,`>` exchanged; refutation; which control characters come out as references that XML 1.0 does not allow |
| C09 | bin2hex11, int_to_hex | hex decoder in Spec, round trip |
| C10 | displayDuration | reads the fields back |
| C11, C12 | convertFILETIME, FileTimeToString, gmtime | Gregorian spec by day counting; 400-year cycle decided by computation and lifted by periodicity |
| C13-C16 | trim, iequals, ExtractBits, erasenulls | induction on strings, finite sweep over bytes |
| C17, C18, C20, C24-C26 | magic table generated from `magic.h`, readFile, guessExtension, main | fold over the table; window size computed; global list as explicit state |
| C19 | roundUpPowerOfTwo with u32 wrap | `log2` argument on bits |
| C21 | Output/ToJson | JSON denotation relation in Spec; text proved to denote the intended value |
| C22 | Output/ToXml | XML denotation relation in Spec |
| C23 | ToCsv | column counting; refutation |
| C27-C30 | `Exe/Model.v` exec_Detailer over the file's bytes (2048-byte first read, re-read at the header), name tables generated from `Exec.hpp` | case analysis of the outcome for every length and header position; tables proved equal to a membership relation |
| C31-C33 | `Exe/Model.v` macho_Detailer and its four renderings | field relation `number_at`; JSON/XML denotation relations |
| C34-C37 | `Media/Model.v` mp4, riff, jpeg and dwg parsers on the bytes read | outcome by length; classification iff; 65536-case table comparison lifted from computation |
| C38, C39 | `Media/WordPerfect.v`; the header pointer is `Some bytes` while its buffer lives and `None` afterwards | every read through it is `UB` after return; JSON denotation while alive |
| C40-C43 | `Asf/Model.v` asf_Detailer on the first 64 KiB; recursion of Parse through header extensions with a step bound | files described by `Asf/Spec.v` for every list of objects; step bound proved adequate (more steps never change a result, and a run without result within the length of the data never has one) |
| C44-C47 | constructors of the eight object classes; GUID table generated from `asf.hpp` | codec lists by induction on the list; JSON/XML denotation relations over nested objects; table rows decided by computation |
| C48 | `convert` (codecvt_utf8) in `Common/Model.v` | RFC 3629 relation in `Common/Utf8.v`, shown functional, equivalence with the surrogate-free inputs |
| C49 | `stream_properties` in `Asf/Model.v` | layout `stream_data` in `Asf/Spec.v`; file-level equality, exact outcome by the two lengths |
| C50 | `extended_content`, `content_descriptor` in `Asf/Model.v` | layout `attributes_data` and relation `attribute_text` in `Asf/Spec.v`; induction on the list |
| C51, C53 | `Ole/Model.v` storage_load; fresh memory is a list of optional bytes, using an unwritten byte is undefined | header numbers decide the outcome; every file described by `Ole/Spec.v` (`stored_as`) opens with its tables; induction over the FAT list outside the header |
| C52 | AllocTable::follow with a step bound of the table's length | relation `chain`; pigeonhole: no chain within the bound means a cycle, and a cycle never ends |
| C54, C56, C57 | DirTree: names by platform, the search, the listing | relations on stored nodes (`siblings`, `at_path`); induction over the sibling tree with the set of ancestors as the bound |
| C55 | StreamIO::read, loadBigBlocks, loadSmallBlock, ReadStream | stream content from chains of sectors; function `arriving` for files with missing sectors |
| C58-C60 | `Vba/Model.v` Decompress with 32-bit sizes and the bytes readable behind the stream | relation `container` in `Vba/Spec.v` from [MS-OVBA]; simulation token by token; a budget invariant (820 bytes of output per byte read, with credit for one long copy) for arbitrary bytes |
| C61-C65 | `Vba/Analyze.v` the reader of the dir stream over a buffer (length passed on, bytes behind the pointer); `Vba/Output.v` the documents | layouts in `Vba/DirSpec.v` from [MS-OVBA] 2.3.4.2, projects in compound files in `Vba/FileSpec.v`; record-by-record simulation; safety with an explicit bound on every index; documents by the grammars of `Magic/Spec.v` |
| C66-C70 | `Propset/Model.v` the reader over the bytes of a stream; `Propset/Output.v` the documents, with "%.6g" by exact integer arithmetic | streams in `Propset/Spec.v` from [MS-OLEPS], IEEE 754 numbers and six-digit decimals as relations; tables first, then values; exact outcome of each value; parser completeness for what is not JSON |
| C71-C74 | `Docs/Model.v` the detail functions over the bytes of streams; structure layouts by the size of `long` | header layouts in `Docs/Spec.v` from [MS-DOC] and [MS-PPT]; outcome by length; tables compared as sets |
| C75-C84 | `Detect/Model.v` recurse with a depth bound, the list of kinds, Guess and Detailer with the growing global list; `Detect/Output.v` the documents | trees of a directory (`holds`) and per-entry outcomes (`yields`) as relations in `Detect/Spec.v` and `Detect/Statements.v`; the run equals a fold over the entries; cycles by the relation `below`; Linux names by arithmetic on code units |
| C85-C91 | `Zip/Model.v` the detail function over the entries that the archive library reports, with the global map of extensions as state | values of the attributes of a text as relations (`types_in`, `taken_from`), kinds by `known`, `selected` and `firsts` in `Zip/Spec.v`; the scan equals the relation by induction; tables compared as sets by computation |
| C92-C97 | `Excel/Model.v` strings and formula tokens, `Excel/Records.v` the records and their fields, `Excel/Engine.v` the loop over the stream and the output; `Excel/Number.v` the text of floating-point numbers | records of a stream, places of records, column names and RK numbers in `Excel/Spec.v`; induction over the turns of the loop with a state invariant for each claim; the output condition by the size of the structure laid over each record |
| C98 | as above | tables of shared strings and their bytes in `Excel/StringSpec.v`; the strings of a record and their JSON and XML in `Excel/TextStatements.v`; `Excel/SstProofs.v` reading a table string by string; `Excel/HistoryProofs.v` every reported record was built from its data with the records before it at hand; `Excel/NumberProofs.v` texts of numbers against IEEE 754 (shared with `Propset`) |
| C99-C101 | as above | formulas as lists of tokens and their texts in `Excel/FormulaSpec.v`, the function table of [MS-XLS] in `Excel/FunctionSpec.v`, values, names and the tokens read in another way in `Excel/FormulaSpec2.v`; `Excel/TokenProofs.v` and `Excel/MisreadProofs.v` reading one token, `Excel/FormulaProofs.v` all tokens, `Excel/LoopProofs.v` every other loop of the workbook reader ends; a run that exceeds the number of bytes in steps repeats a position, so the fuel is exact |
| C102, C103 | as above, with the writers of the documents | what the documents say in `Excel/DocStatements.v`, by the grammar of JSON and XML in `Magic/Spec.v`; `Excel/FineProofs.v` every field of a record that was read can be written, `Excel/DocProofs.v` and `Excel/DocXml.v` the documents; refutations by parsers shown complete for the grammars (`Magic/DocUnique.v`) |
| C104-C110 | `Program/Model.v` the loop over the signatures with every content parser, its global lists as state, and the output of their results | `Program/ScanProofs.v` the loop as the relation `reports` of `Magic/Spec.v`, every parser called at most once with fresh globals; `Program/SafetyProofs.v` the outcome of every parser by the length of the file; `Program/DocProofs.v` the documents of results of every kind; `Program/ArchiveProofs.v`, `Program/CompoundProofs.v`, `Program/WorkbookProofs.v` the three kinds of files end to end |
| C111-C115 | as C93-C101 | the layouts of the records by bits and the codes of the format in `Excel/FieldSpec.v`, independent of the model; `Excel/FieldProofs.v` every number of every record as a run of bits, `Excel/PassProofs.v` encryption headers and countries, `Excel/LinkProofs.v` codes, links, blank cells, colours and counts |
| C116-C119 | as C104-C110 | vocabulary in `Program/PartStatements.v`: what an entry of a compound file holds (`holds_part`), the objects, elements and rows for it, and entries that cannot be read (`spoils`); `Program/PartProofs.v` what the entries yield, `Program/PartDocs.v` what is written for them, `Program/PartProgram.v` the output of the program, `Program/PartSamples.v` files for the examples |
| C120 | `Create-Headers.ps1`, `data.xml`, `magic.h`, `oless/olessmagic.h` | the script and what a compiler makes of its lines in `Gen/Model.v`; the items and the lines of the headers copied by `tools/gen_source.py` into `Gen/Source.v` and `Gen/Header.v`; what an item says in `Gen/Spec.v`, independent of the script; boolean checks with a proof that they suffice in `Gen/Proofs.v` |
| C121 | `test/common_test.hpp` | the checks evaluated in `Common/UnitTests.v`; random files become all files |
| C122 | `coverage.csv`, `README.md`, the whole program | the list of extensions in `Gen/Extensions.v`, the rows of `coverage.csv` copied by `tools/gen_source.py` into `Gen/Coverage.v`; the closed set through all parsers in `Gen/ExtensionProofs.v`; one file per extension evaluated in `Gen/ExtensionSamples.v` |
| C123 | `common.hpp` (`ParseOutputFormat`, `Output`), `README.md` | `Program/PropertyLemmas3.v` |
| C124 | `oless/pole.h`, `oless/oless.hpp`, the whole program | C79 and the split of the results around the row for compound files, in `Program/LinuxProofs.v`; the end of the walk through a directory that is a tree (`Detect/TreeSpec.v`) in `Detect/LinuxEnd.v` |
| C125 | `data.xml`, `magic.h` | signatures written down from memory of the specifications in `Gen/Published.v`; a check that some row lies inside of each signature, lifted to all files in `Gen/PropertyLemmas3.v` |
| C126 | `exe/Exec.hpp`, `exe/macho.hpp` | codes written down from memory of the specifications in `Exe/Published.v`; checks of the tables against them, lifted to all files with C30 and C33, in `Exe/PropertyLemmas2.v` |
| C127 | the whole program | no step of the program runs out of fuel: `Common/EndProofs.v`, `Vba/EndProofs.v`, `Asf/EndProofs.v`, `Excel/RenderEnd.v`, `Detect/WalkEnd.v`, together in `Program/EndProofs.v`; the conditions are in `Program/EndStatements.v` and `Detect/TreeSpec.v` |
| C128, C129 | as C104-C110 | vocabulary in `Program/RowStatements.v`; `Program/RowProofs.v` files for which one parser is called, `Program/AsfProofs.v`, `Program/ZipProofs.v` |
| C130 | as C104-C110 | vocabulary in `Program/KindStatements.v`; `Program/KindProofs.v`, `Program/MachProofs.v` on top of `Program/RowProofs.v` and the theorems about the parsers (C27-C37) |
| C131 | as C104-C110 | `Program/PrefixProofs.v` the loop over the signatures gives the same for both files, parser by parser |
| C132 | as C104-C110 | `Program/RestProofs.v` the first two bytes tell the parsers apart; no row with a parser is carried |
| C133 | as C104-C110 | `Program/BothProofs.v` the loop over the signatures by induction, with the entry each parser gives |
| C134-C136 | `Hidden/Model.v` the methods that are not const and so override nothing | every text a parser produces is printable and without separators, by checks of the tables; the rest as C21-C23 |
| C137 | `Hidden/Colour.v` reading a colour, its text and row | hexadecimal pairs by a check of the 256 bytes; rows as C134 |
| C138 | as C92 | a list by name in `Excel/RecordSpec.v`, which a script sorted from the code's own table; it was not compared with [MS-XLS], so it fixes the model's table against changes but says nothing about conformity; both lists have the same rows, by computation |
| C139 | as C126 | bits in `Exe/Published2.v`, written down from memory with no copy of the specification at hand; both lists compared by computation |
| C140 | as C47 | GUIDs in `Asf/Published.v`, given by their groups, written down from memory after reading the code with no copy of the specification at hand; both lists compared by computation |
| C141 | as C113 | a list in `Excel/PageSpec.v`, which a script copied from the code's own table with one name corrected; not compared with the published list; both lists compared by computation |
| C142 | as C35 | phrases in `Media/BrandSpec.v`, written down from memory after reading the code's table; the table compared with them by computation |

The grammar of XML in `Magic/Spec.v` has elements without attributes, text with character references and CDATA sections. It leaves out one rule of XML 1.0, that no reference may stand for a control character other than tab, line feed and carriage return; C08 says exactly when an escaped text breaks it.

## What is modelled

| source | status |
|--------|--------|
| `common.hpp` | modelled (`Common/Model.v`, `Magic/Model.v`) except console helpers |
| `magic.h`, `fileid.cpp` | table generated, guessExtension / Output / main modelled (`Magic/Model.v` with the content parsers as a parameter, `Program/Model.v` with all of them put in); the texts of exceptions and the library for archives stay parameters |
| `Create-Headers.ps1`, `data.xml` | modelled (`Gen/Model.v`): the loops over the items and the lines they write; reading XML is left to the generator of `Gen/Source.v`, ASCII is the encoding of texts, attribute names are compared without case as PowerShell does |
| `exe/Exec.hpp`, `exe/macho.hpp` | modelled (`Exe/Model.v`, `Exe/Tables.v`; the methods of `Exec.hpp` that override nothing in `Hidden/Model.v`) |
| `media/mp4`, `media/riff`, `media/jpeg.hpp`, `document/dwg` | modelled (`Media/Model.v`); the mp4 `ToX` methods, which override nothing and are never called, are in `Hidden/Model.v` |
| `document/wp` | modelled (`Media/WordPerfect.v`) |
| `media/asf` | modelled (`Asf/Model.v`, `Asf/Tables.v`): parsing, classification, JSON, XML, text and CSV |
| `oless/pole.h` | the reading half modelled (`Ole/Model.v`); writing, creating and deleting streams, caching and consistency checks are not |
| `oless/OleCommon.hpp` | ReadStream and listing modelled |
| `oless/vbahelper.hpp` | modelled: decompression (`Vba/Model.v`; `ceil(log2(d))` of a double is taken to be exact), reading a project (`Vba/Analyze.v`), JSON and XML (`Vba/Output.v`). `delete` of an array, failing allocation and misaligned wide reads are not modelled; `ToText` and `ToCsv` are not const and so never called through the base class (`Hidden/Model.v`) |
| `oless/propset/*.hpp` | modelled. Uses of stream bytes that were never written are undefined as a whole; the text of floating-point numbers is that of a correctly rounding library; `gmtime_s` on Windows is taken to refuse times after 3000-12-31 23:59:59 plus 13 hours; `errno` is not modelled |
| `document/word`, `document/visio`, `document/pubisher`, `document/powerpoint`, `document/msi` | modelled (`Docs/Model.v`) |
| `oless/oless.hpp`, rest of `oless/OleCommon.hpp` | modelled (`Detect/Model.v`, `Detect/Output.v`); there the reader of workbooks is a parameter, in `Program/Model.v` it is that of `Excel/Engine.v` |
| `zip/ziphelper.hpp` | modelled (`Zip/Model.v`, `Zip/Tables.v`); ZipLib, an empty submodule, is represented by the list of entries it reports |
| `document/excel/**` | modelled (`Excel/*.v`; the tables are copied by a script; the text and CSV of a colour in `Hidden/Colour.v`). Structures laid over bytes are read field by field with the x86-64 layout (`Cell`: row at 12, column at 14 behind the pointer to its virtual functions); strict aliasing and alignment are not modelled. Vectors grow as in libstdc++ or the Microsoft library. A formula that is read forever is the outcome `Fuel`; the failing allocation of `readBuffer` is counted as an over-read. The text of an exception is a parameter. Statements about streams assume fewer than 2^30 bytes |
| `test/**` | the checks of `common_test.hpp` about modelled functions are theorems (C121); the test framework is not modelled |
| `coverage.csv` | the extensions and levels (C122); the notes and links are not modelled |
| everything else (project files, CI, ZipLib, console helpers, other documentation) | not modelled |

## Trusted base

No specification of a file format was at hand in the sandbox. Every list or layout said to follow [MS-XLS], [MS-OVBA], "PE Format",
ASF or another publication was written down from memory, mostly after reading the code, and section numbers are cited from memory.
Such files share no definition with the model, so the theorems compare two texts, but they are not an independent source: where
both agree this is no proof of conformity. `Excel/RecordSpec.v` (C138) and `Excel/PageSpec.v` (C141) were made by a script from
the code's own tables and only fix these tables against changes.

Coq 8.16.1's kernel and `vm_compute`; the reading of the C++ recorded in the model's
comments.  No axioms: `Print Assumptions` under every property theorem reports
"Closed under the global context".  `coqchk` additionally lists seven
entries of `Coq.ssr.ssrunder` (the signature of a standard-library module that is loaded
with the standard library); no theorem depends on them.
