{"id": "C01", "title": "Two-byte integer reads return the encoded value", "statement": "Reading a 16-bit integer at an offset whose two bytes lie inside the buffer returns exactly the little-endian value of those bytes by default and the big-endian value when the big-endian flag is set; the signed variant returns the two's-complement reading of the same bits.", "quantifier": "every buffer contents and length, every offset up to 2^32-2 that leaves two bytes, both byte orders", "why_tests_cant": "there are 2^16 byte pairs at unboundedly many offsets; tests sample a handful", "anchors": ["fileid/common.hpp: ReadUShort, ReadSShort"]}
{"id": "C02", "title": "Bounds-checked 16- and 32-bit reads never touch memory outside the buffer", "statement": "A 16- or 32-bit read either returns a value built only from bytes inside the supplied buffer or throws std::range_error; it never reads a byte at or beyond the buffer's end.", "quantifier": "every buffer, every length, every 32-bit offset including those near 2^32", "why_tests_cant": "an out-of-bounds read usually returns a plausible value under test, and the offending offsets are single boundary values out of 2^32", "anchors": ["fileid/common.hpp: ReadUShort, ReadSShort, ReadUInt, ReadSInt"]}
{"id": "C03", "title": "Four-byte integer reads honour the byte-order flag", "statement": "Reading a 32-bit integer with the big-endian flag returns the big-endian value of the four bytes, and without it the little-endian value.", "quantifier": "every buffer, every in-range offset, both flag values", "why_tests_cant": "palindromic or zero values hide the defect; the claim is over all 2^32 values", "anchors": ["fileid/common.hpp: ReadUInt, ReadSInt"]}
{"id": "C04", "title": "Eight-byte integer reads are memory-safe and little-endian", "statement": "Reading an unsigned long or unsigned long long at any offset either returns the little-endian value of bytes inside the buffer or throws, and it throws exactly when the value would not fit; an unsigned long occupies 8 bytes on LP64 Linux and 4 on Windows.", "quantifier": "every buffer, every 32-bit offset, both supported platforms", "why_tests_cant": "quantifies over all offsets and both data models; the offending case would be one boundary", "anchors": ["fileid/common.hpp: ReadULong, ReadULongLong"]}
{"id": "C05", "title": "String and floating-point reads never leave the buffer", "statement": "Extracting a string of a given length, or the bit pattern of a float or double, at a given offset either returns exactly those bytes of the buffer or throws; no combination of offset and length makes it read outside the buffer.", "quantifier": "every buffer, offset and length, including sums that exceed 2^32", "why_tests_cant": "the failing combinations need offset+length to wrap around 2^32; random tests never reach them", "anchors": ["fileid/common.hpp: ReadString, ReadFloat, ReadDouble"]}
{"id": "C06", "title": "Magic comparison is exact", "statement": "The magic check answers true if and only if the expected byte pattern occurs in the buffer starting exactly at the given offset and lying wholly inside it, and it never reads outside either buffer.", "quantifier": "every buffer, pattern and offset, including patterns longer than the buffer and offsets past the end", "why_tests_cant": "equivalence over all buffers, patterns and offsets", "anchors": ["fileid/common.hpp: checkMagic"]}
{"id": "C07", "title": "JSON escaping is legal and lossless", "statement": "For every byte string without NUL bytes the JSON-escaped text is a legal JSON string body (ASCII, no raw quote, backslash or control character) and a JSON decoder maps it back to the same bytes, read as Latin-1; hence different strings never escape to the same text.", "quantifier": "every byte string of any length", "why_tests_cant": "quantifies over all strings; escaping bugs sit on individual characters and adjacent combinations", "anchors": ["fileid/common.hpp: JsonEscape"]}
{"id": "C08", "title": "XML escaping is safe and lossless", "statement": "XML-escaped text contains no raw markup character, quote or control character, and an XML decoder maps it back to the original bytes.", "quantifier": "every byte string of any length", "why_tests_cant": "a well-formedness test passes even when the decoded text differs from the source", "anchors": ["fileid/common.hpp: XmlEscape"]}
{"id": "C09", "title": "Hex rendering is lossless", "statement": "The hex dump of a byte buffer has exactly two lowercase digits per byte and decodes back to the buffer; the hex rendering of an integer has the '0x' prefix, exactly two digits per byte of its type, and parses back to the integer.", "quantifier": "every buffer of any length; every integer of 1, 2, 4 or 8 bytes", "why_tests_cant": "padding bugs show only for small byte values at particular positions", "anchors": ["fileid/common.hpp: bin2hex11, int_to_hex"]}
{"id": "C10", "title": "Durations are rendered without losing a microsecond", "statement": "The textual duration of a 100-nanosecond tick count reads back as exactly the whole number of microseconds, with minutes and seconds always two digits below 60 and the fraction present exactly when it is non-zero.", "quantifier": "every 64-bit tick count", "why_tests_cant": "carries between fields are only visible at boundaries among 2^64 inputs", "anchors": ["fileid/common.hpp: displayDuration"]}
{"id": "C11", "title": "File times after 1970 print the right UTC calendar date", "statement": "For every FILETIME later than the Unix epoch the rendered text is the valid proleptic-Gregorian UTC date and time of that instant, to the second.", "quantifier": "every 64-bit FILETIME past 1970-01-01, leap years and centuries included", "why_tests_cant": "the calendar has a 400-year cycle; a sample of dates cannot show all leap rules", "anchors": ["fileid/common.hpp: convertFILETIME, FileTimeToString"]}
{"id": "C12", "title": "Distinct seconds print distinct timestamps", "statement": "Two FILETIME values that differ by at least one second are rendered as different timestamps.", "quantifier": "every pair of 64-bit FILETIME values", "why_tests_cant": "a claim about all pairs; the collapse below 1970 is not exercised by modern timestamps", "anchors": ["fileid/common.hpp: convertFILETIME, FileTimeToString"]}
{"id": "C13", "title": "Trimming removes exactly the surrounding white space", "statement": "Trimming returns the substring obtained by removing the maximal white-space prefix and suffix: what is removed is only white space, what remains neither starts nor ends with white space, and trimming twice changes nothing.", "quantifier": "every byte string, including all-white-space and empty ones", "why_tests_cant": "quantifies over all strings", "anchors": ["fileid/common.hpp: ltrim, rtrim, trim"]}
{"id": "C14", "title": "Case-insensitive comparison is an equivalence that ignores only ASCII case", "statement": "Two strings compare equal exactly when they have the same length and agree character by character after mapping A-Z to a-z; the relation is reflexive, symmetric and transitive, for narrow and wide strings alike.", "quantifier": "every pair of narrow strings and every pair of wide strings", "why_tests_cant": "quantifies over all pairs; wide characters sharing a low byte are never sampled", "anchors": ["fileid/common.hpp: iequals (both overloads)"]}
{"id": "C15", "title": "Bit extraction returns the addressed bit field", "statement": "Extracting n bits at 1-based position k of a byte yields floor(byte / 2^(k-1)) mod 2^n, always below 2^n, for every field inside the byte.", "quantifier": "every byte, every position 1..8 and width up to 8", "why_tests_cant": "off-by-one positions agree on many sampled values", "anchors": ["fileid/common.hpp: ExtractBits"]}
{"id": "C16", "title": "Removing NULs removes only NULs", "statement": "Erasing NULs keeps every other byte, in order, and leaves no NUL.", "quantifier": "every byte string", "why_tests_cant": "quantifies over all strings", "anchors": ["fileid/common.hpp: erasenulls"]}
{"id": "C17", "title": "Signature identification is sound and complete", "statement": "For file types without a content parser, the program reports a signature's type if and only if that signature's bytes are present at its offset in the file, once per matching signature, in table order.", "quantifier": "every readable file below 4 GiB and every signature in the table", "why_tests_cant": "any of about 150 signatures can be shadowed, lost or reordered on some file; files are unbounded", "anchors": ["fileid/fileid.cpp: guessExtension", "fileid/magic.h: initList", "fileid/common.hpp: checkMagic, readFile"]}
{"id": "C18", "title": "Identification by signature depends only on a bounded prefix that is always long enough", "statement": "The read window is at least as long as every signature's end and two files that agree on the window get the same signature matches; bytes after it are irrelevant.", "quantifier": "every pair of files sharing the first 65536 bytes; every signature", "why_tests_cant": "a non-interference claim over all pairs of files", "anchors": ["fileid/fileid.cpp: getMinimumBufferSize, guessExtension", "fileid/common.hpp: readFile"]}
{"id": "C19", "title": "Buffer sizing rounds up to the next power of two", "statement": "Rounding returns the smallest power of two that is not below the argument for every argument from 1 to 2^31.", "quantifier": "every 32-bit value in the stated range", "why_tests_cant": "2^31 values with failures possible at each power of two", "anchors": ["fileid/fileid.cpp: roundUpPowerOfTwo"]}
{"id": "C20", "title": "Every file gets an answer and the fallback answers are exact", "statement": "The program always reports at least one type when its parsers return; it reports 'empty' exactly when nothing could be read and no signature matched, and 'unknown' exactly when the file is non-empty and no parser or signature produced a result.", "quantifier": "every file", "why_tests_cant": "an absence claim over all files", "anchors": ["fileid/fileid.cpp: main, UnknownExtension, guessExtension", "fileid/unknown.hpp"]}
{"id": "C21", "title": "JSON output is a well-formed document carrying the reported fields", "statement": "For every file name without NUL and every file whose results come from plain signatures or the unknown/empty fallback, the JSON output is one well-formed JSON object whose name and fields decode to the file name and reported values.", "quantifier": "every file name and every file contents in that class", "why_tests_cant": "the sample of an unknown file is arbitrary binary data embedded in the document", "anchors": ["fileid/common.hpp: Output, ExtensionInfo::ToJson, JsonEscape", "fileid/unknown.hpp: ToJson", "fileid/fileid.cpp: main"]}
{"id": "C22", "title": "XML output is a well-formed document", "statement": "For every file name and every file whose results come from plain signatures or the unknown/empty fallback, the XML output is a single balanced element and no data byte can close or open a tag or end a CDATA section.", "quantifier": "every file name and every file contents in that class", "why_tests_cant": "binary samples may contain any byte sequence, including the CDATA terminator", "anchors": ["fileid/common.hpp: Output, ExtensionInfo::ToXml, XmlEscape", "fileid/unknown.hpp: ToXml"]}
{"id": "C23", "title": "CSV output has one row per result with a fixed number of columns", "statement": "In CSV format each result is one line and every line, whatever the file, has the same number of comma-separated columns.", "quantifier": "every file whose results come from plain signatures or the unknown/empty fallback", "why_tests_cant": "needs the exact combination of result kinds or names containing separators", "anchors": ["fileid/common.hpp: ExtensionInfo::ToCsv, Output", "fileid/unknown.hpp: ToCsv"]}
{"id": "C24", "title": "Identifying a file twice in one process gives the same answer", "statement": "Calling the identification routine again on the same unchanged file returns the same list of results.", "quantifier": "every file and every number of earlier calls", "why_tests_cant": "a history property: it depends on global state left by earlier calls", "anchors": ["fileid/fileid.cpp: guessExtension", "fileid/magic.h: initList"]}
{"id": "C25", "title": "Large files are identified from their first bytes", "statement": "The bytes used for identification are the first min(size, window) bytes of the file, whatever the file's size.", "quantifier": "every file size, including sizes of 4 GiB and above", "why_tests_cant": "requires multi-gigabyte inputs of exact sizes", "anchors": ["fileid/common.hpp: readFile, getFileSize"]}
{"id": "C26", "title": "Appending data never loses a signature match", "statement": "If a signature is reported for a file then it is reported for every file that extends it.", "quantifier": "every file, every suffix", "why_tests_cant": "quantifies over all files and all extensions", "anchors": ["fileid/fileid.cpp: guessExtension", "fileid/common.hpp: checkMagic"]}
{"id": "C27", "title": "A PE image is called exe, dll or sys by its characteristics", "statement": "For an MZ file whose COFF header lies inside the file, the reported extension is the one its characteristics word selects (dll, sys, exe).", "quantifier": "every file, every header position and characteristics word", "why_tests_cant": "quantifies over all header positions and all 65536 flag words", "anchors": ["fileid/exe/Exec.hpp: Detailer"]}
{"id": "C28", "title": "Only PE images are reported as dll or sys", "statement": "An MZ file is reported as dll or sys only when the PE signature stands where the DOS header says.", "quantifier": "every MZ file", "why_tests_cant": "a wrong answer needs a non-PE file with particular bytes", "anchors": ["fileid/exe/Exec.hpp: Detailer"]}
{"id": "C29", "title": "Inspecting an MZ file stays inside the file", "statement": "Identifying a file beginning with MZ never reads outside the data read from it.", "quantifier": "every MZ file of every length", "why_tests_cant": "short reads beyond a heap buffer are silent in ordinary runs", "anchors": ["fileid/exe/Exec.hpp: Detailer"]}
{"id": "C30", "title": "The PE details match the header", "statement": "The machine, the characteristics, the subsystem and the versions recorded are the named values of the header fields.", "quantifier": "every PE file, every field value", "why_tests_cant": "the name tables have to be compared for all field values", "anchors": ["fileid/exe/Exec.hpp"]}
{"id": "C31", "title": "Inspecting a Mach-O file stays inside the file", "statement": "Identifying a file with a Mach-O signature never reads outside the data read from it.", "quantifier": "every Mach-O file of every length", "why_tests_cant": "short reads beyond a heap buffer are silent in ordinary runs", "anchors": ["fileid/exe/macho.hpp"]}
{"id": "C32", "title": "CPU, subtype and load commands of a Mach-O file", "statement": "The CPU type, CPU subtype and load command counts reported are those in the header, in the byte order its signature announces.", "quantifier": "every Mach-O file, both byte orders, both word sizes", "why_tests_cant": "needs every CPU type and subtype in both byte orders", "anchors": ["fileid/exe/macho.hpp"]}
{"id": "C33", "title": "Mach-O documents are well formed", "statement": "The JSON and XML documents produced for a Mach-O file are well formed and carry exactly the header's values.", "quantifier": "every Mach-O header", "why_tests_cant": "quantifies over all header values", "anchors": ["fileid/exe/macho.hpp: ToJson, ToXml"]}
{"id": "C34", "title": "Every MP4 file gets an answer", "statement": "A file with the ftyp signature is reported as mp4; identification neither fails nor reads outside the data.", "quantifier": "every file with the signature, of every length", "why_tests_cant": "needs files cut at exact lengths", "anchors": ["fileid/media/mp4/mp4.hpp: MP4Helper"]}
{"id": "C35", "title": "MP4 brand and minor version", "statement": "The brand code, brand name and minor version recorded for an MP4 file are those of its ftyp box and reach the report.", "quantifier": "every file of at least 16 bytes", "why_tests_cant": "needs every brand code", "anchors": ["fileid/media/mp4/mp4.hpp"]}
{"id": "C36", "title": "RIFF files are classified by their form type", "statement": "The extension reported for a RIFF file is the one of its form type.", "quantifier": "every RIFF file", "why_tests_cant": "needs files whose first chunk varies", "anchors": ["fileid/media/riff/riff.hpp: RIFFHelper"]}
{"id": "C37", "title": "AutoCAD releases are named", "statement": "The version name reported for a drawing is the release its six-byte tag stands for.", "quantifier": "every drawing, all 65536 tag endings", "why_tests_cant": "the full tag space has to be compared", "anchors": ["fileid/document/dwg/autocad.hpp: DwgHelper"]}
{"id": "C38", "title": "A WordPerfect result can be rendered", "statement": "Each of the four output formats can be produced for a WordPerfect file with defined behaviour.", "quantifier": "every WordPerfect file, every output format", "why_tests_cant": "use after free is often invisible", "anchors": ["fileid/document/wp/wordperfect.hpp: StreamDetailer, ToJson, ToXml"]}
{"id": "C39", "title": "The WordPerfect header fields", "statement": "Product type, file type, version and encryption key shown are those at offsets 8 to 15 of the header.", "quantifier": "every header, both platforms", "why_tests_cant": "needs both platforms and all header values", "anchors": ["fileid/document/wp/wordperfect.hpp: wpheader"]}
{"id": "C40", "title": "The objects of an ASF header", "statement": "The report for an ASF file lists the objects of its header in order, each with its data, and states the number of objects the header states.", "quantifier": "every header within the first 64 KiB made of objects the parser does not look into, of every number, size and content, on both platforms", "why_tests_cant": "needs every list of objects on two data models", "anchors": ["fileid/media/asf/asf.hpp: Detailer, Parse, ASF_Header_Object"]}
{"id": "C41", "title": "Object sizes that do not fit", "statement": "A file whose object states a size smaller than its own 24-byte frame, or larger than the file, still gets an answer.", "quantifier": "every list of objects before the faulty one, every stated size", "why_tests_cant": "needs malformed sizes at every position", "anchors": ["fileid/media/asf/asf.hpp: Parse"]}
{"id": "C42", "title": "ASF file properties", "statement": "The file properties object is reported with the values of its fields.", "quantifier": "every object of every length, both platforms; every file containing one", "why_tests_cant": "needs the other platform's integer sizes", "anchors": ["fileid/media/asf/asf.hpp: ASF_File_Properties_Object"]}
{"id": "C43", "title": "ASF parsing terminates", "statement": "Parsing any ASF file terminates.", "quantifier": "every data and offset; every header extension made of whole objects and a remainder", "why_tests_cant": "testing cannot show non-termination", "anchors": ["fileid/media/asf/asf.hpp: ASF_Header_Extension_Object, Parse"]}
{"id": "C44", "title": "Codec lists and the kind of file", "statement": "The codecs of an ASF file are reported with their type, name, description and information, and the file is wma when its only codec is Windows Media Audio and wmv when a codec is Windows Media Video.", "quantifier": "every list of codecs with every text, among other objects", "why_tests_cant": "needs every list of codecs", "anchors": ["fileid/media/asf/asf.hpp: ASF_Codec_List_Object, Detailer"]}
{"id": "C45", "title": "Documents for ASF files", "statement": "The JSON and XML output for an ASF file is a well-formed document with the reported values.", "quantifier": "every base entry and every tree of reported objects with plain texts and non-empty lists", "why_tests_cant": "needs every object tree", "anchors": ["fileid/media/asf/asf.hpp: ToJson, ToXml"]}
{"id": "C46", "title": "Content descriptions are read inside their data", "statement": "The five texts of a content description are those stored, and no byte outside the object is read.", "quantifier": "every object data; every text of basic-plane characters", "why_tests_cant": "needs every combination of five lengths", "anchors": ["fileid/media/asf/asf.hpp: ASF_Content_Description_Object"]}
{"id": "C47", "title": "Object labels", "statement": "Each ASF object is labelled with the name its GUID has in the specification's list.", "quantifier": "every GUID and every data", "why_tests_cant": "needs all GUIDs", "anchors": ["fileid/media/asf/asf.hpp: ASFTypeFromGuid, constructors"]}
{"id": "C48", "title": "Wide text is converted to UTF-8", "statement": "Converting a list of wide characters gives the UTF-8 encoding of exactly these characters.", "quantifier": "every list of wide characters of every length", "why_tests_cant": "needs all characters", "anchors": ["fileid/common.hpp: convert"]}
{"id": "C49", "title": "Stream properties of ASF files", "statement": "A stream properties object is reported with its types, time, flags, lengths and its two data blocks, and is read inside its data.", "quantifier": "every stream properties object, of every content and length, among other objects", "why_tests_cant": "needs every pair of block lengths and every file", "anchors": ["fileid/media/asf/asf.hpp: stream_properties_object"]}
{"id": "C50", "title": "Attributes of ASF files", "statement": "The attributes of an extended content description are reported with their names in UTF-8 and their values: texts, byte dumps, truth values and numbers.", "quantifier": "every list of attributes with every name and value, among other objects", "why_tests_cant": "needs every list of typed values", "anchors": ["fileid/media/asf/asf.hpp: content_descriptor, extended_content_description_object"]}
{"id": "C51", "title": "Opening compound files", "statement": "Opening a file reports a missing file, a file without the signature and a file with unusable header numbers as such, and accepts no other; short files are reported too.", "quantifier": "every file, of every length", "why_tests_cant": "needs every file", "anchors": ["fileid/oless/pole.h: Header::valid, Header::load, StorageIO::load"]}
{"id": "C52", "title": "Sector chains", "statement": "Following a chain of sectors gives exactly the linked sectors, each one once, and always ends.", "quantifier": "every allocation table and every start", "why_tests_cant": "chains of every length and every cycle", "anchors": ["fileid/oless/pole.h: AllocTable::follow"]}
{"id": "C53", "title": "Well-formed compound files open", "statement": "Every well-formed compound file opens, with its allocation tables, its directory and its small sectors as stored.", "quantifier": "every well-formed file: every number of FAT sectors, in the header or in sectors of their own, every directory", "why_tests_cant": "needs files beyond 7 MB to reach the FAT list outside the header", "anchors": ["fileid/oless/pole.h: StorageIO::load, getbbatBlocks, loadBigBlocks, AllocTable::load, DirTree::load"]}
{"id": "C54", "title": "Names in compound files", "statement": "The entries of a compound file have the names that are stored.", "quantifier": "every directory entry of every well-formed file", "why_tests_cant": "needs every name in UTF-16", "anchors": ["fileid/oless/pole.h: DirTree::load"]}
{"id": "C55", "title": "Reading streams", "statement": "A stream is read with exactly its bytes, or nothing is returned when it cannot be read in full.", "quantifier": "every stream of every well-formed file, large and small, at every depth", "why_tests_cant": "needs streams of every size with every chain of sectors", "anchors": ["fileid/oless/pole.h: StreamIO::read, loadBigBlocks, loadSmallBlock", "fileid/oless/OleCommon.hpp: ReadStream"]}
{"id": "C56", "title": "Finding entries by path", "statement": "An entry is found by its path if and only if it exists.", "quantifier": "every tree of storages and streams, every path", "why_tests_cant": "needs every tree", "anchors": ["fileid/oless/pole.h: DirTree::entry, DirTree::find_child, find_sibling"]}
{"id": "C57", "title": "Listing storages", "statement": "Listing a storage gives the names of its members, in order of the tree, and always ends.", "quantifier": "every tree of members", "why_tests_cant": "needs every tree", "anchors": ["fileid/oless/pole.h: Storage::entries, DirTree::children, find_siblings"]}
{"id": "C58", "title": "VBA decompression", "statement": "Decompressing a compressed container gives its data: for every container made of chunks of token groups as [MS-OVBA] describes, the result is exactly the data the tokens stand for; and every data can be stored so that decompression gives them back.", "quantifier": "every container of at most 4194272 bytes; every data of at most 3700000 bytes for the round trip", "why_tests_cant": "the tokens depend on all data before them; tests show a few containers", "anchors": ["fileid/oless/vbahelper.hpp: vba_info::Decompress", "fileid/oless/vbahelper.hpp: Extract_CompressedChunkSize"]}
{"id": "C59", "title": "Stored VBA chunks", "statement": "A chunk that is not compressed gives its 4096 bytes.", "quantifier": "every container followed by an uncompressed chunk", "why_tests_cant": "needs every position of the chunk", "anchors": ["fileid/oless/vbahelper.hpp: vba_info::Decompress"]}
{"id": "C60", "title": "VBA decompression stays in its buffers", "statement": "Decompressing any bytes never reads outside the stream and never writes outside the result buffer, and always ends.", "quantifier": "every sequence of bytes", "why_tests_cant": "needs every malformed container", "anchors": ["fileid/oless/vbahelper.hpp: vba_info::Decompress", "fileid/oless/vbahelper.hpp:492"]}
{"id": "C61", "title": "VBA project without references", "statement": "Reading the decompressed dir stream of a VBA project without references reports the project name and every module, in order, with its name, stream name, offset, flags and the source text stored for it; it fails only if fetching the source of a module fails.", "quantifier": "every project that [MS-OVBA] 2.3.4.2 lets be written with no reference and no compatibility version, with any number of modules and any texts", "why_tests_cant": "the layout is a sequence of records whose positions depend on all lengths before", "anchors": ["fileid/oless/vbahelper.hpp: vbahelper::Analyze", "fileid/oless/vbahelper.hpp: ReadString", "fileid/oless/vbahelper.hpp: ReadStringW"]}
{"id": "C62", "title": "VBA versions and references", "statement": "The version numbers, all references and the modules behind them are reported for every project.", "quantifier": "every project in the layout of [MS-OVBA]", "why_tests_cant": "the effect depends on lengths and alignment", "anchors": ["fileid/oless/vbahelper.hpp: ProjectVersion", "fileid/oless/vbahelper.hpp:373-411", "fileid/oless/vbahelper.hpp:352"]}
{"id": "C63", "title": "Reading a VBA project stays in its buffer", "statement": "Reading the project information from any decompressed dir stream never reads outside its buffer and always ends.", "quantifier": "every decompressed stream", "why_tests_cant": "needs every malformed stream", "anchors": ["fileid/oless/vbahelper.hpp: vbahelper::Analyze", "fileid/common.hpp: common::ReadString"]}
{"id": "C64", "title": "Documents of VBA projects", "statement": "The JSON and XML documents for a VBA project are well-formed and carry its fields.", "quantifier": "every project with plain reference names (and code without ]]> for XML)", "why_tests_cant": "needs every text", "anchors": ["fileid/oless/vbahelper.hpp: VbaExtensionInfo::ToJson", "fileid/oless/vbahelper.hpp: VbaExtensionInfo::ToXml"]}
{"id": "C65", "title": "VBA projects in compound files", "statement": "Analyzing a storage of a compound file that holds a VBA project reports the project with the source text of all modules; a missing stream is reported as an error.", "quantifier": "every well-formed compound file with a project without references below any storage", "why_tests_cant": "needs compound files of every shape", "anchors": ["fileid/oless/vbahelper.hpp: vbahelper::Analyze", "fileid/oless/vbahelper.hpp: FetchStream", "fileid/oless/OleCommon.hpp: GetStructFromStream"]}
{"id": "C66", "title": "Property sets are reported as stored", "statement": "Reading the property set stream of an OLE file reports every property of every set, in order, with its format identifier, identifier, type and value: integers, floating-point numbers, truth values, times, byte strings and wide strings.", "quantifier": "every stream shorter than 2^32 - 12 bytes holding any number of sets with any number of properties", "why_tests_cant": "the layout is a tree of offsets with values of ten kinds", "anchors": ["fileid/oless/propset/DocumentSummary.hpp: ParseStream", "fileid/oless/propset/Property.hpp: ReadProperty", "fileid/oless/propset/FormatId.hpp: FormatIdFromGuid"]}
{"id": "C67", "title": "Reading property sets stays in the stream", "statement": "Reading a property set stream never reads outside its bytes, always ends, and every reported property comes from a place its tables name.", "quantifier": "every stream", "why_tests_cant": "needs every malformed stream", "anchors": ["fileid/oless/propset/DocumentSummary.hpp: ParseStream", "fileid/oless/propset/Property.hpp: ReadProperty", "fileid/common.hpp: common::ReadUInt"]}
{"id": "C68", "title": "JSON for a property", "statement": "The JSON text for a property is a JSON object with the name of the property, the name of its type and its value; a floating-point number is shown as the nearest decimal number with six digits.", "quantifier": "every property with a value the reading can produce", "why_tests_cant": "needs every floating-point number and every string", "anchors": ["fileid/oless/propset/Property.hpp: ToJson"]}
{"id": "C69", "title": "XML for a property", "statement": "The XML text for a property is an element with the name of the property, the name of its type and its value, and shows the same value as the JSON text.", "quantifier": "every property with a value the reading can produce", "why_tests_cant": "needs every floating-point number and every string", "anchors": ["fileid/oless/propset/Property.hpp: ToXML"]}
{"id": "C70", "title": "Names of properties and types", "statement": "Every type of [MS-OLEPS] has its name, other types are shown with their number, and within a set different properties have different names; the reserved identifiers have the same name in every set.", "quantifier": "every type and every identifier", "why_tests_cant": "2^32 identifiers in four kinds of sets", "anchors": ["fileid/oless/propset/PropertyType.hpp: PropertyTypeToString", "fileid/oless/propset/PropertyIdentifier.hpp: PropertyIdentifierToString"]}
{"id": "C71", "title": "The version of a Word document is the one in its header", "statement": "For the main stream of a Word document the reported version is nFibNew if the header has it and nFib otherwise, with the product's name; every stream gives a defined result, and nothing but version and version name changes.", "quantifier": "every stream of any length and content", "why_tests_cant": "the header's size is given by a count inside it, so every count and length matters", "anchors": ["fileid/document/word/word.hpp: document::word::Detailer", "fileid/document/word/word.hpp: GetnFib", "fileid/document/word/word.hpp: GetVersion_Word"]}
{"id": "C72", "title": "The version of a Visio or Publisher document is inside the stream", "statement": "The reported version of a Visio or Publisher document is the number at its place in the stream, the same on every platform, with the product's name, and no byte outside the stream is read.", "quantifier": "every stream", "why_tests_cant": "needs streams of every length, and two platforms", "anchors": ["fileid/document/visio/vsd.hpp: document::visio::Detailer", "fileid/document/pubisher/pub.hpp: document::publisher::Detailer"]}
{"id": "C73", "title": "The version of a PowerPoint document is that of its last edit", "statement": "The reported version of a PowerPoint document is the one in the edit to which the stream Current User points, and a version that is a known build is reported with that build's name.", "quantifier": "every pair of streams; every version", "why_tests_cant": "offsets from one stream select bytes of another; 65536 versions", "anchors": ["fileid/document/powerpoint/ppt.hpp: document::powerpoint::Detailer", "fileid/document/powerpoint/ppt.hpp: GetPptVersion", "fileid/document/powerpoint/ppt.hpp: GetVersion_Powerpoint"]}
{"id": "C74", "title": "Merge modules and patches are told from installer files", "statement": "An installer database is reported as a merge module if its string table names ModuleAdminExecuteSequence, as a patch if it names MsiPatchSequence but neither this nor InstallExecuteSequence, and as an installer otherwise.", "quantifier": "every stream", "why_tests_cant": "needs every combination and position of the names", "anchors": ["fileid/document/msi/msi.hpp: document::msi::Detailer"]}
{"id": "C75", "title": "Every entry of a compound file is looked at, in order", "statement": "The result for a compound file lists, for every storage and stream below the root in directory order, what that entry shows (a document kind, a VBA project, a group of properties or nothing); the paths of all entries and the property groups, in the order of their paths, are with the first result that can hold them, and a file without results gives one general result.", "quantifier": "every well-formed compound file of any shape; every entry", "why_tests_cant": "needs directory trees of every shape and depth", "anchors": ["fileid/oless/oless.hpp: OleStructuredStorage::Guess", "fileid/oless/oless.hpp: recurse", "fileid/oless/oless.hpp: guessStreamInfo"]}
{"id": "C76", "title": "Documents and macro projects in a compound file are reported, and only those", "statement": "A stream whose path is that of a known document kind is reported as that kind with the details read from it, a macro storage is reported with its VBA project, each path belongs to at most one kind, and nothing else is reported.", "quantifier": "every well-formed compound file, every stream and storage", "why_tests_cant": "every name, in every case, at every depth", "anchors": ["fileid/oless/oless.hpp: OleStructuredStorage::ole_list", "fileid/oless/oless.hpp: guessStreamInfo", "fileid/oless/vbahelper.hpp: vbahelper::Analyze"]}
{"id": "C77", "title": "The variant of a document is reported", "statement": "The result for a stream that tells a variant (rights managed, encrypted, Office 2003, 2007 or 2010) names that variant.", "quantifier": "every stream of a kind with a variant", "why_tests_cant": "needs files of every variant", "anchors": ["fileid/oless/oless.hpp: OleStructuredStorage::ole_list", "fileid/oless/oless.hpp: guessStreamInfo"]}
{"id": "C78", "title": "Calls for several files do not influence each other", "statement": "Asking for any number of files one after the other gives for each the result of asking for it alone.", "quantifier": "every sequence of files, every platform", "why_tests_cant": "needs long sequences; the state is a global list that grows with every call", "anchors": ["fileid/oless/oless.hpp: oless::Detailer"]}
{"id": "C79", "title": "Compound files give the same results on Linux", "statement": "The result for a compound file is the same on Linux as on Windows, and can be printed.", "quantifier": "every well-formed compound file", "why_tests_cant": "two platforms, every file", "anchors": ["fileid/oless/oless.hpp: OleStructuredStorage::Guess", "fileid/oless/OleCommon.hpp: OLESSExtensionInfo::ToJson"]}
{"id": "C80", "title": "Looking at a compound file ends", "statement": "The search through a compound file ends for every file.", "quantifier": "every file", "why_tests_cant": "loops in the directory", "anchors": ["fileid/oless/oless.hpp: recurse"]}
{"id": "C81", "title": "Projects in the root storage are read", "statement": "A VBA project whose streams are in the storage VBA of the root, as in vbaProject.bin, is reported, and a project that cannot be read is reported as an error.", "quantifier": "every well-formed compound file with such a project", "why_tests_cant": "needs such files", "anchors": ["fileid/oless/oless.hpp: guessStreamInfo", "fileid/oless/vbahelper.hpp: vbahelper::Analyze"]}
{"id": "C82", "title": "JSON for a compound file is well-formed and complete", "statement": "The JSON text for a result is one object with the fields, the list of all paths in UTF-8 and for every property stream its name and properties.", "quantifier": "every result with Unicode paths and finite property values", "why_tests_cant": "every character of every name", "anchors": ["fileid/oless/OleCommon.hpp: OLESSExtensionInfo::buildBaseJson", "fileid/oless/OleCommon.hpp: OLESSExtensionInfo::ToJson"]}
{"id": "C83", "title": "XML for a compound file is well-formed and complete", "statement": "The XML text for a result is one element with the fields, all paths and all property groups; the text and CSV rows are extension, version name and version.", "quantifier": "every result with Unicode paths", "why_tests_cant": "every character of every name", "anchors": ["fileid/oless/OleCommon.hpp: OLESSExtensionInfo::buildBaseXml", "fileid/oless/OleCommon.hpp: OLESSExtensionInfo::ToXml"]}
{"id": "C84", "title": "The test for compound files", "statement": "A file is taken for a compound file exactly if it begins with the signature of eight bytes.", "quantifier": "every file", "why_tests_cant": "files of every length", "anchors": ["fileid/oless/oless.hpp: oless::IsOless"]}
{"id": "C85", "title": "A declared content type of an Office document is reported", "statement": "If the part [Content_Types].xml of a ZIP archive declares, with ContentType=\"...\", the type of a Word, Excel, PowerPoint or XPS main part, then the detail function for ZIP files reports the extension that belongs to this type.", "quantifier": "every archive; every text of the part with any number of attributes; each of the 17 types", "why_tests_cant": "needs texts with attributes at every position and in every number", "anchors": ["fileid/zip/ziphelper.hpp: Detailer", "fileid/zip/ziphelper.hpp: CheckContentType"]}
{"id": "C86", "title": "The kinds reported for an archive are exactly those of its marker files and declared types", "statement": "The detail function for ZIP files reports, in this order and nothing else: the kinds of the marker files the archive has, then the kinds of the known content types and of the known MIME type, each extension once; if there is none, the list of its entries as a plain ZIP file. If the archive cannot be opened, its exception is passed on.", "quantifier": "every archive, whatever its entries and texts, and every state of the process", "why_tests_cant": "all combinations of entries and of texts", "anchors": ["fileid/zip/ziphelper.hpp: Detailer", "fileid/zip/ziphelper.hpp: CheckEntry", "fileid/zip/ziphelper.hpp: addExtension", "fileid/zip/ziphelper.hpp: CheckMimeType"]}
{"id": "C87", "title": "The result for an archive does not depend on archives examined before", "statement": "Calling the detail function for ZIP files on an archive gives the same result whatever archives were examined before in the same process.", "quantifier": "every archive, every earlier call", "why_tests_cant": "needs sequences of calls; unit tests make one", "anchors": ["fileid/zip/ziphelper.hpp: addExtension", "fileid/zip/ziphelper.hpp: Detailer"]}
{"id": "C88", "title": "An OpenDocument file is reported with its extension", "statement": "If the entry mimetype of an archive is one of the OpenDocument types, the registered extension of that type is reported.", "quantifier": "every archive; each of the 17 types", "why_tests_cant": "table of seventeen types in any archive", "anchors": ["fileid/zip/ziphelper.hpp: CheckMimeType", "fileid/zip/ziphelper.hpp: Detailer"]}
{"id": "C89", "title": "Macro projects in Office archives are analyzed", "statement": "If an archive declares a VBA project and contains a file for it, the project is reported, and for no archive is behaviour undefined.", "quantifier": "every archive", "why_tests_cant": "needs archives with projects, and a memory checker", "anchors": ["fileid/zip/ziphelper.hpp: GetVBA", "fileid/oless/vbahelper.hpp: Analyze"]}
{"id": "C90", "title": "The JSON and XML documents for an archive list its entries", "statement": "The JSON and the XML document for a plain ZIP file are well formed and list every entry in order with name, sizes, method, password flag, comment and CRC-32 as the archive has them.", "quantifier": "every list of entries", "why_tests_cant": "names and comments of any content", "anchors": ["fileid/zip/ziphelper.hpp: ZipExtensionInfo::ToJson", "fileid/zip/ziphelper.hpp: ZipExtensionInfo::ToXml"]}
{"id": "C91", "title": "The compressed size shown is the compressed size", "statement": "The compressed size shown for an entry is the number of compressed bytes, and different sizes are shown differently.", "quantifier": "every size", "why_tests_cant": "needs entries above 2 GB", "anchors": ["fileid/zip/ziphelper.hpp: getZipDetails", "fileid/zip/ziphelper.hpp: ZipFileInfo"]}
{"id": "C92", "title": "The records of a workbook are reported in order", "statement": "Every record of a workbook stream (type, length and data) is reported once, in the order of the stream, up to the record that announces encryption; only a record whose contents are interpreted may be missing, and if nothing is wrong with the stream no error text is given.", "quantifier": "every stream below 2^30 bytes; every list of records of every type and length", "why_tests_cant": "needs streams with any number of records of any type", "anchors": ["fileid/document/excel/ParseEngine.hpp: ParseStream", "fileid/document/excel/ExcelExtensionInfo.hpp: Detailer", "fileid/document/excel/records/Record.Parser.hpp: ParseRecord"]}
{"id": "C93", "title": "The version of a workbook is the one of its first record", "statement": "The version number, its name and the type reported for a workbook are those of the BOF record the stream starts with.", "quantifier": "every stream below 2^30 bytes", "why_tests_cant": "needs first records of every type, length and version", "anchors": ["fileid/document/excel/ParseEngine.hpp: ParseStream", "fileid/document/excel/MSExcel.common.hpp: GetVersion_Excel", "fileid/document/excel/ExcelExtensionInfo.hpp: Detailer"]}
{"id": "C94", "title": "Every sheet is reported with its own records", "statement": "In a BIFF8 workbook every BoundSheet8 record gives one sheet, in order, with its name, type, visibility and offset; and each record is reported under the sheet announced with the offset of the BOF record before it, or under the workbook if there is none.", "quantifier": "every stream below 2^30 bytes; any number of sheets; names of one byte per character", "why_tests_cant": "needs workbooks with any number of sheets at any offsets", "anchors": ["fileid/document/excel/ParseEngine.hpp: ParseStream", "fileid/document/excel/Sheet.hpp: Sheet", "fileid/document/excel/records/BoundSheet8Record.hpp: BoundSheet8Record"]}
{"id": "C95", "title": "Cells are named as in a spreadsheet", "statement": "A column is written with the letters A to Z, AA to ZZ and so on, and the cell of a record is written as the letters of its column followed by the number of its row.", "quantifier": "every column below 2^16 and every row; every formula, number and blank record", "why_tests_cant": "needs all columns and all rows", "anchors": ["fileid/document/excel/MSExcel.common.hpp: ColNumToName", "fileid/document/excel/structures/Cell.hpp: Cell", "fileid/document/excel/records/FormulaRecord.hpp: FormulaRecord", "fileid/document/excel/records/RKRecord.hpp: RKRecord", "fileid/document/excel/records/MulBlankRecord.hpp: MulBlankRecord"]}
{"id": "C96", "title": "The numbers of cells are shown as stored", "statement": "The value reported for an RK record is the number it stores: an integer of 30 bits or a floating-point number, divided by 100 if the record says so.", "quantifier": "every RK number of 32 bits; every cell", "why_tests_cant": "2^32 numbers", "anchors": ["fileid/document/excel/records/RKRecord.hpp: RKNumber", "fileid/document/excel/records/RKRecord.hpp: RKRecord"]}
{"id": "C97", "title": "A workbook that was read can be written", "statement": "The JSON and XML of a workbook that was read do not read outside of its records.", "quantifier": "every BIFF8 stream below 2^30 bytes without encryption; Linux and Windows", "why_tests_cant": "needs every record type with every length, with and without Continue records", "anchors": ["fileid/document/excel/ExcelExtensionInfo.hpp: ToJson", "fileid/document/excel/ExcelExtensionInfo.hpp: ToXml", "fileid/document/excel/structures/Cell.hpp: Cell", "fileid/document/excel/records/ContinueRecord.hpp: ContinueRecord"]}
{"id": "C98", "title": "The texts of a workbook are reported", "statement": "The strings of the shared string table are reported in order, a cell that refers to a shared string is reported with that string, and the names of sheets are reported as stored.", "quantifier": "every list of strings of every length, in one or two bytes per character, with formatting runs and phonetic data; every platform", "why_tests_cant": "needs tables with any number of strings of any length and any characters", "anchors": ["fileid/document/excel/records/SSTRecord.hpp: SSTRecord", "fileid/document/excel/structures/XLUnicodeRichExtendedString.hpp: XLUnicodeRichExtendedString", "fileid/document/excel/records/LabelSstRecord.hpp: LabelSstRecord", "fileid/document/excel/structures/ShortXLUnicodeString.hpp: ShortXLUnicodeString"]}
{"id": "C99", "title": "The text of a formula", "statement": "A cell with a formula is reported with a text that lists the tokens of the formula in order: operators by name, constants, references and ranges by the usual names of their cells, functions by name, defined names by the names given before. Only the tokens of the formula are listed.", "quantifier": "every list of tokens of every length, every cell, every function number, every list of earlier records", "why_tests_cant": "needs formulas of any length with every kind of token, and any number of earlier names", "anchors": ["fileid/document/excel/structures/formulas/Rgce.hpp: Rgce", "fileid/document/excel/records/FormulaRecord.hpp: FormulaRecord", "fileid/document/excel/records/LblRecord.hpp: LblRecord", "fileid/document/excel/structures/formulas/helper.hpp: GetFunctionName_FTab"]}
{"id": "C100", "title": "The value of a formula", "statement": "A cell with a formula is reported with the name of the cell and the value stored with the formula: a number in decimal, a logical value, an error by name, and nothing if the value is a text or missing.", "quantifier": "every number in double precision, every kind of value, every cell", "why_tests_cant": "needs every number of 64 bits", "anchors": ["fileid/document/excel/structures/FormulaValue.hpp: FormulaValue", "fileid/document/excel/structures/Cell.hpp: Cell"]}
{"id": "C101", "title": "Reading a workbook ends", "statement": "Reading the stream of a workbook comes to an end.", "quantifier": "every stream of up to 2^30 bytes", "why_tests_cant": "needs every stream, and no test can tell a loop that does not end from a slow one", "anchors": ["fileid/document/excel/ParseEngine.hpp: ParseStream", "fileid/document/excel/structures/formulas/Rgce.hpp: Rgce", "fileid/document/excel/structures/formulas/PtgAttrChoose.hpp: PtgAttrChoose"]}
{"id": "C102", "title": "The JSON document for a workbook", "statement": "The JSON document for a workbook is well formed and says exactly what was read: the description of the file, the records of the workbook in order, each with its type, its length and its fields, and every sheet with its name, kind, visibility, offset and records; the shared strings are an array with one entry for each string.", "quantifier": "every stream of up to 2^30 bytes that is read without undefined behaviour", "why_tests_cant": "needs every workbook, with any number of records and any texts", "anchors": ["fileid/document/excel/ExcelExtensionInfo.hpp: ExcelExtensionInfo", "fileid/document/excel/SubStream.hpp: SubStream", "fileid/document/excel/Sheet.hpp: Sheet", "fileid/document/excel/records/Record.hpp: Record", "fileid/document/excel/records/SSTRecord.hpp: SSTRecord", "fileid/document/excel/records/FilePassRecord.hpp: FilePassRecord"]}
{"id": "C103", "title": "The XML document for a workbook", "statement": "The XML document for a workbook is well formed and says exactly what was read, in the same order and with the same contents as the JSON document.", "quantifier": "every stream of up to 2^30 bytes that is read without undefined behaviour", "why_tests_cant": "needs every workbook, with any number of records and any texts", "anchors": ["fileid/document/excel/ExcelExtensionInfo.hpp: ExcelExtensionInfo", "fileid/document/excel/SubStream.hpp: SubStream", "fileid/document/excel/Sheet.hpp: Sheet", "fileid/document/excel/records/Record.hpp: Record", "fileid/document/excel/records/StringRecord.hpp: StringRecord"]}
{"id": "C104", "title": "The program reports what the signatures and their parsers say", "statement": "For a file given on the command line the program reports, in the order of its list of signatures, the description of every signature the file carries, or for signatures with a content parser the results of that parser called for the first time in the process; if there are none, it reports that the file is empty or unknown. The first parser that fails decides the outcome. The results are printed in the format asked for by the second argument.", "quantifier": "every file of less than 4 GiB, every format, both platforms", "why_tests_cant": "needs every combination of signatures and every content", "anchors": ["fileid/fileid.cpp: main", "fileid/fileid.cpp: guessExtension", "fileid/magic.h: initList", "fileid/common.hpp: Output"]}
{"id": "C105", "title": "Which files are answered", "statement": "Every file that carries no signature of an archive, compound file or ASF file is answered in every format.", "quantifier": "every file of less than 4 GiB without one of the three signatures, every format, both platforms", "why_tests_cant": "one must know for all contents that no parser reads out of bounds", "anchors": ["fileid/fileid.cpp: main", "fileid/fileid.cpp: guessExtension", "fileid/exe/Exec.hpp: Detailer", "fileid/media/mp4/mp4.hpp: Detailer", "fileid/document/wp/wordperfect.hpp: WordPerfectExtensionInfo"]}
{"id": "C106", "title": "The JSON document of the program", "statement": "In JSON the program writes one document with the name of the file and an array with one value for every result, which says exactly what was found.", "quantifier": "every file whose results can be written; every file of less than 4 GiB that is answered and has no container signature; every archive without macro projects whose names need no escape", "why_tests_cant": "needs every file and every combination of results", "anchors": ["fileid/fileid.cpp: main", "fileid/common.hpp: Output", "fileid/fileid.cpp: guessExtension"]}
{"id": "C107", "title": "The XML document of the program", "statement": "In XML the program writes one document with the name of the file and an element for every result, which says exactly what was found; the name can be read back if it has no angle brackets.", "quantifier": "every file whose results can be written; every file of less than 4 GiB that is answered and has no container signature; every archive without macro projects whose names need no escape", "why_tests_cant": "needs every file and every combination of results", "anchors": ["fileid/fileid.cpp: main", "fileid/common.hpp: Output", "fileid/fileid.cpp: guessExtension"]}
{"id": "C108", "title": "Archives on the command line", "statement": "Every archive that the library can open is answered in every format.", "quantifier": "every file of less than 4 GiB that starts with PK and that the library opens, every format, both platforms", "why_tests_cant": "needs every archive", "anchors": ["fileid/fileid.cpp: main", "fileid/zip/ziphelper.hpp: Detailer", "fileid/zip/ziphelper.hpp: GetVBA"]}
{"id": "C109", "title": "Compound files on the command line", "statement": "A compound file is answered if and only if every entry has a defined outcome and every result can be written; the documents have a value for every result of every entry; a failure in an entry is the outcome of the program.", "quantifier": "every file of less than 4 GiB that starts with D0 CF 11 E0, every format", "why_tests_cant": "needs every compound file", "anchors": ["fileid/fileid.cpp: main", "fileid/oless/oless.hpp: Detailer", "fileid/oless/oless.hpp: OleStructuredStorageExtensionInfo"]}
{"id": "C110", "title": "A workbook in a compound file, from the bytes to the documents", "statement": "For a compound file in which the only telling entry is a workbook, the program writes a document in which one result has the paths of all entries and exactly the records and sheets of the workbook; if the workbook cannot be read, that is the outcome of the program.", "quantifier": "every compound file of less than 4 GiB with any other entries that tell nothing, any workbook of less than 1 GiB, Windows", "why_tests_cant": "needs every way to store a workbook in a file, and every workbook", "anchors": ["fileid/fileid.cpp: main", "fileid/oless/oless.hpp: Detailer", "fileid/document/excel/ExcelExtensionInfo.hpp: Detailer", "fileid/document/excel/ExcelExtensionInfo.hpp: ExcelExtensionInfo"]}
{"id": "C111", "title": "Numbers in records of workbooks", "statement": "For every kind of record the numbers in its report are exactly the fields of the format under their names, each taken from its bits.", "quantifier": "every record of version 8 of every type, whatever its bytes, both platforms", "why_tests_cant": "needs every value of every field at once", "anchors": ["fileid/document/excel/records/FormulaRecord.hpp: FormulaRecord", "fileid/document/excel/records/LblRecord.hpp: LblRecord", "fileid/document/excel/records/WinProtectRecord.hpp: WinProtectRecord", "fileid/document/excel/records/ExternNameRecord.hpp: ExternNameRecord", "fileid/document/excel/records/RowRecord.hpp: RowRecord", "fileid/document/excel/records/BOFRecord.hpp: BOFRecord", "fileid/document/excel/records/AreaFormatRecord.hpp: AreaFormatRecord", "fileid/document/excel/records/RKRecord.hpp: RKRecord"]}
{"id": "C112", "title": "Encryption headers of workbooks", "statement": "The report of the encryption record shows the kind of encryption, the versions, the flags, the numbers of the header, the name of the provider, the salt, the verifier and the hash of the verifier.", "quantifier": "every encryption record of version 8, JSON and XML", "why_tests_cant": "needs every kind of header with every size", "anchors": ["fileid/document/excel/records/FilePassRecord.hpp: FilePassRecord", "fileid/document/excel/records/FilePassRecord.hpp: ToJson", "fileid/document/excel/records/FilePassRecord.hpp: ToXml"]}
{"id": "C113", "title": "Codes are named as in the format", "statement": "Countries, kinds of substreams and the code pages of Windows are shown with the names of the format; a code that has no name is shown as unknown.", "quantifier": "every 16-bit code", "why_tests_cant": "needs all codes", "anchors": ["fileid/document/excel/records/CountryRecord.hpp: GetCountryName", "fileid/document/excel/records/BOFRecord.hpp: GetBOFType", "fileid/document/excel/records/CodePageRecord.hpp: CPToString"]}
{"id": "C114", "title": "Links to other workbooks", "statement": "A link shows the path of the other workbook and the names of its sheets; a name that stands for a function of an add-in is shown.", "quantifier": "every link with a path of 1 to 255 characters of one byte, every function with a name of fewer than 256", "why_tests_cant": "needs every path and every position", "anchors": ["fileid/document/excel/records/SupBookRecord.hpp: SupBookRecord", "fileid/document/excel/records/ExternNameRecord.hpp: ExternNameRecord", "fileid/document/excel/structures/AddinUdf.hpp: AddinUdf"]}
{"id": "C115", "title": "Blank cells, colours and counts of strings", "statement": "A row of blank cells shows its format indices in order and its columns, an area its two colours, and the table of strings its two counts.", "quantifier": "every row of blank cells of at least one cell, every area, every table of strings", "why_tests_cant": "needs rows of every length", "anchors": ["fileid/document/excel/records/MulBlankRecord.hpp: MulBlankRecord", "fileid/document/excel/records/AreaFormatRecord.hpp: AreaFormatRecord", "fileid/document/excel/structures/LongRGB.hpp: LongRGB", "fileid/document/excel/records/SSTRecord.hpp: SSTRecord"]}
{"id": "C116", "title": "A compound file, from the bytes to the JSON document", "statement": "For a compound file whose entries hold any number of documents, workbooks, macro projects and property sets, the program writes a JSON document whose results are the signatures that match before and behind, and one object for every document, workbook and project in the order of the entries, with their versions, modules, records and properties; the first document has the paths of all entries and all property sets.", "quantifier": "every compound file of less than 4 GiB with readable entries of any kinds and any number, Windows", "why_tests_cant": "needs every combination of entries and every way to store them", "anchors": ["fileid/fileid.cpp: main", "fileid/fileid.cpp: guessExtension", "fileid/oless/oless.hpp: OleStructuredStorage::Guess", "fileid/oless/OleCommon.hpp: OLESSExtensionInfo::buildBaseJson", "fileid/oless/vbahelper.hpp: Analyze", "fileid/oless/propset/Property.hpp: ReadProperty", "fileid/common.hpp: Output"]}
{"id": "C117", "title": "A compound file, from the bytes to the XML document", "statement": "The same as C116 for the XML document.", "quantifier": "every compound file of less than 4 GiB with readable entries of any kinds and any number, Windows", "why_tests_cant": "needs every combination of entries and every way to store them", "anchors": ["fileid/fileid.cpp: main", "fileid/fileid.cpp: guessExtension", "fileid/oless/oless.hpp: OleStructuredStorage::Guess", "fileid/oless/OleCommon.hpp: OLESSExtensionInfo::buildBaseJson", "fileid/oless/vbahelper.hpp: Analyze", "fileid/oless/propset/Property.hpp: ReadProperty", "fileid/common.hpp: Output"]}
{"id": "C118", "title": "A compound file, from the bytes to the rows", "statement": "For a compound file the program writes exactly one row for every matching signature, document, workbook and macro project, in the order of the signatures and the entries; with tabs behind the name of the file, or with commas and without the name. Every format that is not xml, csv or json gives the former.", "quantifier": "every compound file of less than 4 GiB with readable entries of any kinds and any number, every format, Windows", "why_tests_cant": "needs every combination of entries", "anchors": ["fileid/fileid.cpp: main", "fileid/fileid.cpp: guessExtension", "fileid/oless/oless.hpp: OleStructuredStorage::Guess", "fileid/oless/OleCommon.hpp: OLESSExtensionInfo::buildBaseJson", "fileid/common.hpp: Output", "fileid/common.hpp: ParseOutputFormat"]}
{"id": "C119", "title": "One entry does not spoil the others", "statement": "The results for a compound file are written even if one of its entries cannot be read.", "quantifier": "every compound file of less than 4 GiB, every entry behind any readable ones, every format, Windows", "why_tests_cant": "needs every place of the entry and everything around it", "anchors": ["fileid/fileid.cpp: main", "fileid/fileid.cpp: guessExtension", "fileid/oless/oless.hpp: OleStructuredStorage::Guess", "fileid/oless/OleCommon.hpp: OLESSExtensionInfo::buildBaseJson", "fileid/document/visio/vsd.hpp: document::visio::Detailer", "fileid/document/pubisher/pub.hpp: document::publisher::Detailer", "fileid/oless/vbahelper.hpp: Analyze"]}
{"id": "C120", "title": "The tables of signatures are those of data.xml", "statement": "The two headers with the signatures of files and of entries of compound files are what the script of the project makes of data.xml, line by line. Every signature has the extension, name, version, offset, parser and bytes that its item says, in the order of the items; the arrays have distinct names. A file with the bytes of an item at its offset is described by that item, and a file with the bytes of no item is reported as empty or unknown. Bytes in hexadecimal or as text in data.xml become exactly those bytes.", "quantifier": "every item of data.xml; every text of bytes; every file of less than 4 GiB", "why_tests_cant": "needs every file and every way to write a signature", "anchors": ["fileid/Create-Headers.ps1", "fileid/data.xml", "fileid/magic.h: initList", "fileid/oless/olessmagic.h: initList", "fileid/fileid.cpp: guessExtension"]}
{"id": "C121", "title": "The project's own unit tests", "statement": "The checks of the unit tests hold: comparison of signatures, times and durations, comparison without case, trimming, removal of null characters, conversion, sizes and contents of files, bits, identifiers, escaping and joining.", "quantifier": "the samples of the tests; every content of less than 4 GiB where the tests use random files", "why_tests_cant": "the tests exercise single samples and cannot see undefined behaviour that happens to give the expected value", "anchors": ["test/common_test.hpp", "fileid/common.hpp: checkMagic", "fileid/common.hpp: FileTimeToString", "fileid/common.hpp: ExtractBits", "fileid/common.hpp: JsonEscape", "fileid/common.hpp: vector_join"]}
{"id": "C122", "title": "The extensions the program reports", "statement": "Whatever the bytes of a file and the entries of an archive are, every result of the program carries one of 153 extensions; and for each of them there is a file of less than 4 GiB for which the program reports it. Every extension that coverage.csv lists as identified is among them, except for the two named below; twenty extensions that the program reports are not on the list of coverage.csv.", "quantifier": "every content of a file, every platform, every list of entries of an archive", "why_tests_cant": "needs every file, to show that no other extension is ever reported", "anchors": ["coverage.csv", "README.md", "fileid/fileid.cpp: guessExtension", "fileid/magic.h: initList", "fileid/oless/olessmagic.h: initList", "fileid/zip/ziphelper.hpp"]}
{"id": "C123", "title": "The words for the formats of the output", "statement": "The second argument selects JSON, XML or comma-separated values only when it is json, xml or csv in small letters; with any other word the program prints the same as without one. The JSON output is one object, the XML output one file element, the plain output begins with the name of the file.", "quantifier": "every file, platform and second argument", "why_tests_cant": "needs every word and every file", "anchors": ["README.md", "fileid/common.hpp: ParseOutputFormat", "fileid/common.hpp: Output", "fileid/fileid.cpp: main"]}
{"id": "C124", "title": "Compound files on Linux, from the bytes to the output", "statement": "On Linux the program prints, for every compound file it comes to an end with, the rows of the other signatures and one row for a compound file of unknown kind; only when an entry has a name of 15 characters there can be rows for the equation editor instead. With the formats JSON and XML the program ends with an exception when an entry of the root has a usual name. It comes to an end with every compound file whose directory is a tree.", "quantifier": "every compound file of less than 4 GiB, every second argument", "why_tests_cant": "needs every compound file; the test files are run on one platform", "anchors": ["fileid/oless/pole.h: DirTree::load", "fileid/oless/oless.hpp: Detailer", "fileid/common.hpp: Output", "fileid/fileid.cpp: main"]}
{"id": "C125", "title": "Published signatures", "statement": "Every file with one of the signatures that the specifications of 60 formats give, at the offset they give, is reported with the extension of the format.", "quantifier": "every listed signature, every file of less than 4 GiB that is answered", "why_tests_cant": "needs every file; a wrong byte or offset in the table only shows with files of that format", "anchors": ["fileid/data.xml", "fileid/magic.h: initList", "fileid/fileid.cpp: guessExtension"]}
{"id": "C126", "title": "Published codes of executables", "statement": "The words for the machine, the characteristics and the subsystem of a PE image and for the CPU and its subtype of a Mach-O file are the ones the specifications give for the codes in the headers.", "quantifier": "every published code, every file of less than 4 GiB", "why_tests_cant": "needs the whole list of published codes; a wrong row only shows with files for that processor", "anchors": ["fileid/exe/Exec.hpp: GetMachineTypeString", "fileid/exe/Exec.hpp: GetSubsystemString", "fileid/exe/Exec.hpp: CharacteristicsMap", "fileid/exe/macho.hpp: cpuType2String", "fileid/exe/macho.hpp: cpuSubType2String"]}
{"id": "C127", "title": "The program ends", "statement": "For every file of less than 4 GiB the program ends, whatever the arguments, unless the file is an archive the library for archives does not get through, an ASF file with an extended header, or a compound file whose directory is not a tree; on Windows compound files must also have chains of sectors without cycles and workbooks whose formulas move reading on.", "quantifier": "every file of less than 4 GiB, both platforms, all arguments", "why_tests_cant": "a test that does not end gives no answer; needs every file", "anchors": ["fileid/fileid.cpp: guessExtension", "fileid/media/asf/asf.hpp: Parse", "fileid/oless/pole.h: AllocTable::follow", "fileid/oless/oless.hpp: recurse", "fileid/document/excel/ParseEngine.hpp: ParseStream"]}
{"id": "C128", "title": "An ASF file, from its bytes to the printed output", "statement": "For every file of less than 4 GiB that starts with the identifier of ASF files the program gives an answer exactly if reading the objects does, and otherwise fails as reading them does. The rows name the signatures of the file in the order of the table with one row asf, wma or wmv among them. If the texts in the objects hold no characters with a meaning in the document, the JSON and the XML printed are documents with exactly one reading, and it lists the signatures and every object read.", "quantifier": "every ASF file of less than 4 GiB, both platforms, every file name", "why_tests_cant": "needs every sequence of objects and every position in the table of signatures", "anchors": ["fileid/fileid.cpp: main", "fileid/media/asf/asf.hpp", "fileid/fileid.cpp: guessExtension"]}
{"id": "C129", "title": "An archive, from its entries to the printed output", "statement": "For every archive without macro projects the rows, the JSON and the XML printed name the signatures of the file in the order of the table, and in the place of the archive one entry per kind of document found in it, or, if none is found, the entry of a plain archive with all members. Each document has exactly one reading.", "quantifier": "every list of entries, both platforms, every file name", "why_tests_cant": "needs every list of entries", "anchors": ["fileid/fileid.cpp: main", "fileid/zip/ziphelper.hpp", "fileid/fileid.cpp: guessExtension"]}
{"id": "C130", "title": "An executable, drawing, picture, sound or film, from its bytes to the printed output", "statement": "For every file with the signature of one of these formats and of no other format with a parser, long enough for its header, the rows, the JSON and the XML printed name the signatures of the file in the order of the table with exactly one entry of the format among them, and that entry is the one its header asks for: exe, dll or sys by the characteristics of a PE image, the form of a RIFF file, the release of a drawing, and for Mach-O files the magic number, processor and counts of commands. Each document has exactly one reading.", "quantifier": "every such file of less than 4 GiB, both platforms, every file name", "why_tests_cant": "needs every header and every position in the table of signatures", "anchors": ["fileid/fileid.cpp: main", "fileid/fileid.cpp: guessExtension", "fileid/exe/Exec.hpp", "fileid/exe/macho.hpp", "fileid/media/riff/riff.hpp", "fileid/media/mp4/mp4.hpp", "fileid/document/dwg/autocad.hpp"]}
{"id": "C131", "title": "The first 64 KiB of a file decide", "statement": "For two files of less than 4 GiB with the same first 64 KiB the program prints the same, whatever the arguments, unless they are archives or compound files or executables with a header behind the first 64 KiB. So data appended to a file of at least 64 KiB changes nothing.", "quantifier": "every pair of files, both platforms, all arguments", "why_tests_cant": "needs every pair of files", "anchors": ["fileid/fileid.cpp: main", "fileid/fileid.cpp: guessExtension", "fileid/common.hpp: readFile", "fileid/exe/Exec.hpp", "fileid/media/asf/asf.hpp"]}
{"id": "C132", "title": "Files without a parser and WordPerfect files, from the bytes to the output", "statement": "Every file of less than 4 GiB calls no parser, or one, or the parser for films and exactly one other that is not the one for ASF files. If it calls none, the program prints one entry for every signature of the table the file carries, in the order of the table, or the entry for an empty file, or the entry for an unknown file with its first 512 bytes. A file that is missing gives the output of an empty file. A WordPerfect file gives one row with the other signatures as text and CSV.", "quantifier": "every file below 4 GiB, all arguments, both platforms", "why_tests_cant": "needs every file", "anchors": ["fileid/fileid.cpp: main", "fileid/fileid.cpp: guessExtension", "fileid/unknown.hpp", "fileid/magic.h", "fileid/document/wp/wordperfect.hpp"]}
{"id": "C133", "title": "Files of several kinds, from the bytes to the output", "statement": "A file that carries the signatures of several parsers for executables, films, sounds, drawings or pictures gets one entry per signature, in the order of the table, each the one its parser gives; the entries are determined by the file, and the documents printed hold exactly these.", "quantifier": "every file below 4 GiB whose called parsers are of these kinds", "why_tests_cant": "needs every file", "anchors": ["fileid/fileid.cpp: main", "fileid/fileid.cpp: guessExtension", "fileid/magic.h", "fileid/media/mp4/mp4.hpp"]}
{"id": "C134", "title": "The documents of the class for executables", "statement": "For every file that the parser for executables reads, the JSON, XML, text and CSV that the object writes through its own type hold exactly the kind, the machine, the subsystem and, in JSON, the versions and characteristics; the rows have six cells.", "quantifier": "every file the parser reads, both platforms", "why_tests_cant": "needs every header", "anchors": ["fileid/exe/Exec.hpp: ExecExtensionInfo::ToJson", "fileid/exe/Exec.hpp: ExecExtensionInfo::ToXml", "fileid/exe/Exec.hpp: ExecExtensionInfo::ToText", "fileid/exe/Exec.hpp: ExecExtensionInfo::ToCsv"]}
{"id": "C135", "title": "The documents of the class for films", "statement": "For every film the JSON and XML that the object writes through its own type hold the version, the name of the brand and its code; the rows have five cells.", "quantifier": "every file of 16 bytes or more", "why_tests_cant": "needs every code of a brand", "anchors": ["fileid/media/mp4/mp4.hpp: Mp4ExtensionInfo::ToJson", "fileid/media/mp4/mp4.hpp: Mp4ExtensionInfo::ToXml", "fileid/media/mp4/mp4.hpp: Mp4ExtensionInfo::ToText", "fileid/media/mp4/mp4.hpp: Mp4ExtensionInfo::ToCsv", "fileid/media/mp4/mp4.hpp: GetBrandName"]}
{"id": "C136", "title": "The rows of the class for macro projects", "statement": "The rows that the object for a macro project writes through its own type have eight cells: those of every result, the name of the project and the two numbers of its version.", "quantifier": "every project", "why_tests_cant": "needs every name", "anchors": ["fileid/oless/vbahelper.hpp: ToText", "fileid/oless/vbahelper.hpp: ToCsv"]}
{"id": "C137", "title": "Colours of charts", "statement": "A colour is the four bytes at the given offset; its text is # and eight upper-case hexadecimal digits from which each part can be read, and its CSV row has the four parts in decimal. Reading never leaves the buffer.", "quantifier": "every buffer, offset and colour", "why_tests_cant": "2^32 colours; overreads are invisible to tests", "anchors": ["fileid/document/excel/structures/LongRGB.hpp: LongRGB::Parse", "fileid/document/excel/structures/LongRGB.hpp: LongRGB::ToText", "fileid/document/excel/structures/LongRGB.hpp: LongRGB::ToCsv", "test/oless/excel/structures/LongRGB_test.hpp: Parse"]}
{"id": "C138", "title": "Records of workbooks are shown with their names", "statement": "Every record of a workbook is shown in JSON and XML with the name listed for its number, then its length; the number can be told from the name.", "quantifier": "every record and number", "why_tests_cant": "65536 numbers", "anchors": ["fileid/document/excel/records/Record.hpp: GetRecordTypeStr", "fileid/document/excel/records/Record.hpp: Record::getBaseJson", "fileid/document/excel/records/Record.hpp: Record::getBaseXml"]}
{"id": "C139", "title": "The characteristics of libraries", "statement": "For an executable whose headers are complete, the recorded DLL characteristics are the words for the bits set in the field of the format, and only these.", "quantifier": "every file of less than 4 GiB whose headers end in its first 2048 bytes, both platforms", "why_tests_cant": "65536 values of the field and 2^32 of its neighbour", "anchors": ["fileid/exe/Exec.hpp: Detailer", "fileid/exe/Exec.hpp: DllCharacteristicsMap"]}
{"id": "C140", "title": "Published GUIDs of ASF", "statement": "Every object with a GUID of the list of published GUIDs is labelled with its name there, and every other GUID is unknown.", "quantifier": "every GUID and object", "why_tests_cant": "2^128 GUIDs", "anchors": ["fileid/media/asf/asf.hpp: ASFTypeFromGuid", "fileid/media/asf/asf.hpp: ASFTypeToString"]}
{"id": "C141", "title": "Names of code pages", "statement": "The code page of a workbook is shown with its number and the description listed for it, and every other number is shown as unknown.", "quantifier": "every record of this kind that is read, both platforms", "why_tests_cant": "65536 numbers", "anchors": ["fileid/document/excel/records/CodePageRecord.hpp: CodePageRecord"]}
{"id": "C142", "title": "Descriptions of MP4 brands", "statement": "The description recorded for an MP4 file contains the phrase that tells its brand, and every brand in use has a description.", "quantifier": "every file of at least 16 bytes", "why_tests_cant": "2^32 brand codes", "anchors": ["fileid/media/mp4/mp4.hpp"]}
