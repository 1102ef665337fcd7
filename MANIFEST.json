{
 "claims": [
  {
   "property": "C01",
   "status": "proved",
   "theorems": [
    "C01_unsigned_short_value",
    "C01_signed_short_value"
   ],
   "note": "Offsets up to 2^32-2 (offset+1 is computed in 32 bits)."
  },
  {
   "property": "C02",
   "status": "partial",
   "theorems": [
    "C02_in_bounds_refuted",
    "C02_in_bounds_int_refuted",
    "C02_unsigned_short_unsafe_iff",
    "C02_signed_short_unsafe_iff",
    "C02_unsigned_int_unsafe_iff",
    "C02_signed_int_unsafe_iff"
   ],
   "note": "Refuted: the guards are off by one, so a read one byte past the end is accepted (e.g. a 16-bit read at the last byte), and offset+1 / offset+3 wrap at 2^32. The *_unsafe_iff theorems give the exact set of failing offsets for all buffers; everywhere else the reads are safe."
  },
  {
   "property": "C03",
   "status": "partial",
   "theorems": [
    "C03_byte_order_refuted",
    "C03_unsigned_int_value",
    "C03_signed_int_value"
   ],
   "note": "Refuted: the 32-bit readers have the byte-order flag inverted. The value theorems state, for every buffer and in-range offset, exactly which byte order each flag value yields."
  },
  {
   "property": "C04",
   "status": "proved",
   "theorems": [
    "C04_unsigned_long",
    "C04_unsigned_long_long"
   ],
   "note": ""
  },
  {
   "property": "C05",
   "status": "partial",
   "theorems": [
    "C05_string_in_bounds_refuted",
    "C05_string_unsafe_iff",
    "C05_string_value",
    "C05_double_value",
    "C05_double_wrap",
    "C05_float_value"
   ],
   "note": "Refuted: offset+length is computed in 32 bits and wraps. The failure set is characterised exactly for strings; below the wrap the full property is proved for strings, floats and doubles."
  },
  {
   "property": "C06",
   "status": "proved",
   "theorems": [
    "C06_check_magic_exact"
   ],
   "note": ""
  },
  {
   "property": "C07",
   "status": "proved",
   "theorems": [
    "C07_json_denotes",
    "C07_json_unambiguous",
    "C07_json_injective",
    "C07_json_printable",
    "C07_json_nul_truncates"
   ],
   "note": "Proved for NUL-free strings as stated; C07_json_nul_truncates says what happens otherwise."
  },
  {
   "property": "C08",
   "status": "partial",
   "theorems": [
    "C08_xml_lossless_refuted",
    "C08_xml_lossless_iff",
    "C08_xml_injective",
    "C08_xml_no_markup",
    "C08_xml_always_decodes",
    "C08_xml_characters_refuted",
    "C08_xml_characters_iff"
   ],
   "note": "Safety and injectivity are proved for every string; losslessness is refuted because < and > are exchanged, and holds exactly for strings containing neither (C08_xml_lossless_iff). Control characters are written as references, which XML 1.0 allows for tab, line feed and carriage return only (C08_xml_characters_iff)."
  },
  {
   "property": "C09",
   "status": "proved",
   "theorems": [
    "C09_hex_dump",
    "C09_hex_dump_unambiguous",
    "C09_int_to_hex"
   ],
   "note": ""
  },
  {
   "property": "C10",
   "status": "proved",
   "theorems": [
    "C10_duration_text",
    "C10_duration_unambiguous"
   ],
   "note": ""
  },
  {
   "property": "C11",
   "status": "proved",
   "theorems": [
    "C11_filetime_calendar",
    "C11_timestamp_unambiguous"
   ],
   "note": ""
  },
  {
   "property": "C12",
   "status": "partial",
   "theorems": [
    "C12_distinct_refuted",
    "C12_collision_iff"
   ],
   "note": "Refuted: every instant before 1970-01-01 00:00:01 prints as 1601-01-01 00:00:00. C12_collision_iff: these are the only collisions."
  },
  {
   "property": "C13",
   "status": "proved",
   "theorems": [
    "C13_trim",
    "C13_trim_determined",
    "C13_trim_idempotent"
   ],
   "note": ""
  },
  {
   "property": "C14",
   "status": "partial",
   "theorems": [
    "C14_iequals_iff",
    "C14_iequals_equivalence",
    "C14_wide_refuted",
    "C14_wide_iff",
    "C14_wide_latin1"
   ],
   "note": "Proved for narrow strings. Refuted for wide strings: only the low byte of each character is compared (C14_wide_iff is exact)."
  },
  {
   "property": "C15",
   "status": "proved",
   "theorems": [
    "C15_extract_bits"
   ],
   "note": ""
  },
  {
   "property": "C16",
   "status": "proved",
   "theorems": [
    "C16_erase_nulls",
    "C16_none_left",
    "C16_determined"
   ],
   "note": ""
  },
  {
   "property": "C17",
   "status": "proved",
   "theorems": [
    "C17_reported_iff_present",
    "C17_sound",
    "C17_complete"
   ],
   "note": "For files below 4 GiB (see C25 for larger ones); the content parsers are an arbitrary parameter."
  },
  {
   "property": "C18",
   "status": "proved",
   "theorems": [
    "C18_window_covers_any_table",
    "C18_table_fits",
    "C18_same_prefix_same_answer"
   ],
   "note": "Proved for the real table and for any table whose signatures end below 2^31."
  },
  {
   "property": "C19",
   "status": "proved",
   "theorems": [
    "C19_least_power_of_two",
    "C19_wraps_to_zero",
    "C19_zero"
   ],
   "note": ""
  },
  {
   "property": "C20",
   "status": "proved",
   "theorems": [
    "C20_always_an_answer",
    "C20_exact_answer",
    "C20_missing_file_is_empty"
   ],
   "note": "C20_exact_answer covers readable files below 4 GiB; a path that cannot be opened is reported as empty."
  },
  {
   "property": "C21",
   "status": "proved",
   "theorems": [
    "C21_json_document"
   ],
   "note": "The grammar is proved unambiguous, so the document denotes exactly the stated value."
  },
  {
   "property": "C22",
   "status": "proved",
   "theorems": [
    "C22_xml_document"
   ],
   "note": "The grammar is proved unambiguous. The file name is shown faithfully exactly when it has no angle bracket (see C08)."
  },
  {
   "property": "C23",
   "status": "partial",
   "theorems": [
    "C23_fixed_columns_refuted",
    "C23_rows_and_columns"
   ],
   "note": "Refuted: a plain result has five columns, the unknown result three. C23_rows_and_columns gives the exact counts for every file of the class."
  },
  {
   "property": "C24",
   "status": "partial",
   "theorems": [
    "C24_same_answer_refuted",
    "C24_answer_after_k_calls",
    "C24_same_answer_iff"
   ],
   "note": "Refuted: every call appends the whole table to a global list, so call k+1 returns the answer k+1 times. Exact for every k."
  },
  {
   "property": "C25",
   "status": "partial",
   "theorems": [
    "C25_large_file_refuted",
    "C25_read_below_4GiB",
    "C25_read_any_size"
   ],
   "note": "Refuted: the size is truncated to 32 bits, so a 4 GiB file with a valid signature is reported as empty. Exact read for every size, and the property below 4 GiB."
  },
  {
   "property": "C26",
   "status": "proved",
   "theorems": [
    "C26_append_keeps_signatures",
    "C26_append_keeps_carried"
   ],
   "note": ""
  },
  {
   "property": "C27",
   "status": "partial",
   "theorems": [
    "C27_kind",
    "C27_header_out_of_file",
    "C27_complete_header_refuted"
   ],
   "note": "Proved when the COFF header ends strictly inside the file. Refuted at the boundary: a file that ends exactly with its COFF header is reported as exe whatever the characteristics say."
  },
  {
   "property": "C28",
   "status": "partial",
   "theorems": [
    "C28_only_pe_refuted",
    "C28_signature_ignored"
   ],
   "note": "Refuted: the PE signature is never compared; C28_signature_ignored shows the four bytes have no influence on any file."
  },
  {
   "property": "C29",
   "status": "partial",
   "theorems": [
    "C29_safe_iff",
    "C29_answers_one",
    "C29_every_mz_file_refuted"
   ],
   "note": "Refuted: MZ files below 64 bytes are read past the end; C29_safe_iff is exact for all lengths (mod 2^32)."
  },
  {
   "property": "C30",
   "status": "partial",
   "theorems": [
    "C30_coff_details",
    "C30_optional_details",
    "C30_subsystem_refuted",
    "C30_only_kind_is_printed"
   ],
   "note": "Proved for machine and characteristics. Refuted for the subsystem: the optional header is only read when it ends strictly before the first 2048 bytes (or the file) do; C30_optional_details is the exact condition. C30_only_kind_is_printed: none of the details reaches the output."
  },
  {
   "property": "C31",
   "status": "partial",
   "theorems": [
    "C31_safe_iff",
    "C31_every_macho_file_refuted"
   ],
   "note": "Refuted below 28 bytes; exact characterisation."
  },
  {
   "property": "C32",
   "status": "partial",
   "theorems": [
    "C32_little_endian_fields",
    "C32_big_endian_refuted"
   ],
   "note": "Proved for little-endian headers (in the sense of the code), refuted for big-endian ones, whose fields are not swapped."
  },
  {
   "property": "C33",
   "status": "proved",
   "theorems": [
    "C33_documents"
   ],
   "note": ""
  },
  {
   "property": "C34",
   "status": "partial",
   "theorems": [
    "C34_exact_outcome",
    "C34_every_ftyp_file_refuted"
   ],
   "note": "Refuted for files of 8 to 14 bytes (uncaught exception) and of 15 bytes (read past the end); exact for every length."
  },
  {
   "property": "C35",
   "status": "partial",
   "theorems": [
    "C35_brand_and_version",
    "C35_brand_name_unique",
    "C35_brand_reported_refuted"
   ],
   "note": "The recorded values are proved right (the brand table has no duplicate codes); that they are reported is refuted: files with different brands give identical results."
  },
  {
   "property": "C36",
   "status": "partial",
   "theorems": [
    "C36_exact_kind",
    "C36_always_answers",
    "C36_form_type_refuted"
   ],
   "note": "Refuted: a WAVE file whose first chunk is not fmt is reported as riff. C36_exact_kind is the exact classification by form type and first chunk."
  },
  {
   "property": "C37",
   "status": "partial",
   "theorems": [
    "C37_release_names",
    "C37_short_file",
    "C37_every_release_refuted"
   ],
   "note": "Exact for all tags; refuted for the releases after R2007 (AC1024, AC1027, AC1032), which get no name."
  },
  {
   "property": "C38",
   "status": "partial",
   "theorems": [
    "C38_exact_rendering",
    "C38_render_refuted"
   ],
   "note": "Refuted for JSON and XML, for every file: the header pointer refers to a buffer destroyed on return. TEXT and CSV are exact."
  },
  {
   "property": "C39",
   "status": "partial",
   "theorems": [
    "C39_fields_by_platform",
    "C39_linux_offsets_refuted"
   ],
   "note": "Stated for the rendering while the buffer is alive. True where long is 4 bytes; refuted on Linux, where the fields are taken from offsets 16 to 23. C39_fields_by_platform is exact."
  },
  {
   "property": "C40",
   "status": "partial",
   "theorems": [
    "C40_objects_windows",
    "C40_objects_linux",
    "C40_no_object_linux",
    "C40_number_refuted"
   ],
   "note": "Exact on Windows (the first N objects, N the stated number). Refuted on Linux, where the number is read as eight bytes: the stated number is wrong, the number field does not limit the list, and a header without objects ends in an uncaught exception."
  },
  {
   "property": "C41",
   "status": "partial",
   "theorems": [
    "C41_size_below_24",
    "C41_size_beyond_data",
    "C41_every_file_answered_refuted"
   ],
   "note": "A size beyond the data ends the list and the answer keeps the objects before it. Refuted for every size below 24: the subtraction wraps and the program ends with length_error."
  },
  {
   "property": "C42",
   "status": "partial",
   "theorems": [
    "C42_fields_windows",
    "C42_exact_outcome",
    "C42_standard_object_linux",
    "C42_standard_object_refuted"
   ],
   "note": "Exact on Windows. On Linux the last four fields are read as eight bytes four bytes apart, so every file with a standard 80-byte object ends in an uncaught exception. Objects under 16 bytes are read past their end."
  },
  {
   "property": "C43",
   "status": "partial",
   "theorems": [
    "C43_bounded_or_forever",
    "C43_header_extension_windows",
    "C43_header_extension_linux",
    "C43_termination_refuted"
   ],
   "note": "For all data below 4 GiB parsing either ends within as many steps as there are bytes or never. Refuted: a header extension with 1 to 23 bytes after its last object makes it loop forever (proved for every such file). On Linux an empty extension ends in an uncaught exception."
  },
  {
   "property": "C44",
   "status": "partial",
   "theorems": [
    "C44_codecs_windows",
    "C44_codecs_linux",
    "C44_single_video_refuted"
   ],
   "note": "Entries exact on Windows, kind characterised exactly: one audio codec gives wma; a Windows Media Video codec gives wmv only when the list does not have exactly one entry, so a single video codec gives asf (refuted). On Linux no list whose first name has an ordinary second character is ever reported."
  },
  {
   "property": "C45",
   "status": "partial",
   "theorems": [
    "C45_json_document",
    "C45_xml_document",
    "C45_opaque_objects_plain",
    "C45_json_refuted",
    "C45_empty_list_refuted",
    "C45_xml_refuted"
   ],
   "note": "Proved for plain texts (nested extensions included). Refuted for titles with a quotation mark or an angle bracket and for an empty codec list."
  },
  {
   "property": "C46",
   "status": "partial",
   "theorems": [
    "C46_exact_outcome",
    "C46_short_object",
    "C46_file_with_long_texts",
    "C46_texts_windows",
    "C46_inside_data_refuted"
   ],
   "note": "The stored texts are reported in UTF-8 (Windows). The object is read outside its data exactly when the stated lengths exceed it, or when it is shorter than ten bytes and of odd length (refuted)."
  },
  {
   "property": "C47",
   "status": "partial",
   "theorems": [
    "C47_exact_labels",
    "C47_table_rows",
    "C47_compatibility_never_named",
    "C47_content_label_refuted",
    "C47_compatibility_refuted"
   ],
   "note": "Every row of the list is found under its own name except the compatibility object, which shares the header's GUID in the list and is never named. Refuted also for content descriptions, which are labelled as header extensions; exact for every object."
  },
  {
   "property": "C48",
   "status": "partial",
   "theorems": [
    "C48_exact_conversion",
    "C48_decoding_unique",
    "C48_valid_utf8_refuted"
   ],
   "note": "Exact: conversion throws exactly when a unit is above 0x10FFFF, and the result is valid UTF-8, of exactly these characters, if and only if no unit is a surrogate. Refuted for UTF-16 surrogate pairs, whose result no UTF-8 decoder accepts."
  },
  {
   "property": "C49",
   "status": "partial",
   "theorems": [
    "C49_stream_windows",
    "C49_exact_outcome",
    "C49_stream_linux",
    "C49_linux_refuted",
    "C49_inside_data_refuted"
   ],
   "note": "Windows: exact for well-formed objects in files, and the exact outcome for every object (undefined behaviour exactly when the stated lengths exceed the data: refuted safety). Linux: every stream with error correction data reads out of bounds, because the 4-byte lengths are read as 8 bytes (refuted)."
  },
  {
   "property": "C50",
   "status": "partial",
   "theorems": [
    "C50_attributes_windows",
    "C50_attributes_without_dwords",
    "C50_reversal",
    "C50_dwords_refuted"
   ],
   "note": "Exact on Windows for every list of well-formed attributes; 32-bit numbers are shown with their bytes reversed (refuted), everything else is right."
  },
  {
   "property": "C51",
   "status": "partial",
   "theorems": [
    "C51_no_file",
    "C51_short_file",
    "C51_other_file",
    "C51_bad_header",
    "C51_good_header",
    "C51_safe_refuted"
   ],
   "note": "Exact for each kind of file. A file below 512 bytes is not reported: the header is taken from memory that was never written (refuted). With a good header the answer is a storage, undefined behaviour or no answer; C53 says which for the main cases."
  },
  {
   "property": "C52",
   "status": "partial",
   "theorems": [
    "C52_chain",
    "C52_cycle",
    "C52_cycle_forever",
    "C52_sectors_once",
    "C52_termination_refuted"
   ],
   "note": "Exact: the chain is returned if and only if it is finite; on a cycle the loop never ends, with any number of steps (refuted termination, with a file of less than 4 KiB)."
  },
  {
   "property": "C53",
   "status": "partial",
   "theorems": [
    "C53_opens_every_file",
    "C53_missing_fat_sector",
    "C53_endless_mini_fat",
    "C53_endless_directory",
    "C53_no_directory",
    "C53_truncated_file_refuted"
   ],
   "note": "Proved for all well-formed files on both platforms, up to the names (C54). Exact outcomes for a missing FAT sector and a missing directory (undefined behaviour) and for cyclic mini FAT and directory chains (no end). That a cut file is refused is refuted."
  },
  {
   "property": "C54",
   "status": "partial",
   "theorems": [
    "C54_names_windows",
    "C54_names_linux",
    "C54_names_windows_refuted",
    "C54_names_linux_refuted"
   ],
   "note": "Windows: the name up to the first character whose code is a multiple of 256, so the name itself for others (refuted for U+0100 and the like). Linux: every name of two or more characters is garbled, because pairs of characters are taken as one (refuted)."
  },
  {
   "property": "C55",
   "status": "partial",
   "theorems": [
    "C55_reads_content",
    "C55_short_chain",
    "C55_exact_outcome",
    "C55_never_outside",
    "C55_unwritten_bytes_refuted",
    "C55_stale_bytes_refuted"
   ],
   "note": "Proved for streams whose sectors are in the file (Windows names), for chains shorter than the stream (nothing), and the exact bytes for large streams whatever the file lacks; reading never leaves a buffer. Refuted when sectors are missing: the stream is returned in full length with unwritten memory or bytes of an earlier sector."
  },
  {
   "property": "C56",
   "status": "partial",
   "theorems": [
    "C56_found_windows",
    "C56_absent_windows",
    "C56_not_found_linux",
    "C56_standard_order_refuted",
    "C56_found_linux_refuted"
   ],
   "note": "Windows: exact for storages whose members are ordered by length and code. The order that the format prescribes compares upper-case letters: such files lose entries (refuted). Linux: no path with a part of two or more characters is ever found (refuted)."
  },
  {
   "property": "C57",
   "status": "partial",
   "theorems": [
    "C57_lists_members",
    "C57_cyclic_storage",
    "C57_never_outside",
    "C57_termination_refuted"
   ],
   "note": "Exact on Windows for finite trees; with a cycle the listing never ends (refuted with a file of less than 4 KiB). No listing leaves the directory."
  },
  {
   "property": "C58",
   "status": "proved",
   "theorems": [
    "C58_decompresses_every_container",
    "C58_every_data_has_a_container",
    "C58_round_trip"
   ],
   "note": "Bounded only by the 32-bit size of the result buffer (C60 shows what happens above)."
  },
  {
   "property": "C59",
   "status": "partial",
   "theorems": [
    "C59_raw_chunk_at_the_end",
    "C59_raw_chunk_short",
    "C59_raw_chunk_takes_its_position",
    "C59_raw_chunk_refuted"
   ],
   "note": "Refuted: the loop copies as many bytes as the END POSITION of the chunk, not its length. At the end of a stream it always reads past the stream (undefined behaviour), for every container; with enough bytes after it, it takes exactly the position plus length, also proved."
  },
  {
   "property": "C60",
   "status": "partial",
   "theorems": [
    "C60_memory_safe_partial",
    "C60_stray_byte",
    "C60_exact_memory_refuted",
    "C60_overflow_of_the_result",
    "C60_overflow_refuted",
    "C60_no_room",
    "C60_no_bytes",
    "C60_other_signature",
    "C60_foreign_chunk"
   ],
   "note": "Proved for every content of 1 to 4194272 bytes when twice as many bytes can be read: no write outside the result, always ends. With only the stream itself in memory one stray byte after any container is read past its end (refuted, for every container). From 4 MiB on the size of the result wraps: 1 KiB for a stream of 4194305 bytes, overflowed by a seven byte prefix whatever follows (refuted)."
  },
  {
   "property": "C61",
   "status": "proved",
   "theorems": [
    "C61_project_without_references"
   ],
   "note": "On Windows, where wchar_t has two bytes (C65 for Linux). The version numbers are those of C62."
  },
  {
   "property": "C62",
   "status": "partial",
   "theorems": [
    "C62_version_numbers_refuted",
    "C62_only_the_first_reference",
    "C62_short_identifiers",
    "C62_all_references_refuted",
    "C62_modules_after_references_refuted",
    "C62_compat_version_always_fails",
    "C62_compat_version_refuted"
   ],
   "note": "Refuted in three ways, each with an exact theorem for all projects. The version structure is not packed: the major number is a mix of both, the minor number always 12. The type of a reference is taken from the size field: whenever reading succeeds only the first reference is reported (unless the size happens to be one of five numbers), and modules can be lost. With a compatibility version record the offset of the name is wrong and reading always throws. All references and the modules are right if the identifiers of the libraries have three bytes (modulo 65536), as then the size of their record is taken for its type."
  },
  {
   "property": "C63",
   "status": "partial",
   "theorems": [
    "C63_memory_safe_partial",
    "C63_wrapped_length",
    "C63_memory_refuted"
   ],
   "note": "Proved for every container of at most 4194272 bytes in which no four bytes make a length that carries past 2^32. Refuted in general: the sum of offset and length wraps around, and the check passes; proved for every length of the project name that wraps."
  },
  {
   "property": "C64",
   "status": "partial",
   "theorems": [
    "C64_json_document",
    "C64_xml_document",
    "C64_rows_say_nothing_of_the_project",
    "C64_json_document_refuted",
    "C64_json_is_unambiguous_refuted",
    "C64_xml_code_refuted",
    "C64_xml_reference_is_escaped_refuted"
   ],
   "note": "Proved for references without special characters: JSON carries text up to the first NUL, XML exchanges the angle brackets (C08) and puts commas between the modules. Refuted for references with quotes or ampersands, for code with ]]>; two different lists of references give the same JSON; the text and CSV rows do not depend on the project."
  },
  {
   "property": "C65",
   "status": "partial",
   "theorems": [
    "C65_project_of_a_file",
    "C65_without_version_stream",
    "C65_without_dir_stream",
    "C65_without_module_stream",
    "C65_linux_never",
    "C65_linux_finds_project_refuted",
    "C65_defined_without_stream_refuted"
   ],
   "note": "Proved on Windows. A missing version stream, dir stream or module stream is undefined behaviour, for all files. On Linux no project is ever found: every call is undefined or does not end."
  },
  {
   "property": "C66",
   "status": "partial",
   "theorems": [
    "C66_reports_stored_values",
    "C66_reports_all_values",
    "C66_bytes_of_the_stream",
    "C66_wide_strings_and_names",
    "C66_wide_strings_linux",
    "C66_four_byte_integers_refuted",
    "C66_wide_strings_linux_refuted",
    "C66_names_refuted"
   ],
   "note": "Proved for every stream without VT_I4 values and names of streams or storages, and on Linux without wide strings. Refuted for the rest, with theorems for all inputs: a VT_I4 value is reported with its four bytes reversed; on Linux a wide string of two or more units whose second one is at least 17 makes reading the whole stream throw; the name of a stream or storage is read as a wide string of twice its length. Integers are reported modulo 2^64."
  },
  {
   "property": "C67",
   "status": "partial",
   "theorems": [
    "C67_always_ends",
    "C67_results_come_from_the_tables",
    "C67_short_streams",
    "C67_reading_a_value",
    "C67_memory_safe",
    "C67_long_table_refuted",
    "C67_wide_string_refuted"
   ],
   "note": "Ends for every stream, and reported properties come from the tables. Memory safety is refuted: the table of a set is read without a check, and a wide string of size zero makes a range of 2^32 - 2 bytes. Proved for every position: reading a value is undefined exactly if its type lies outside, or the stream ends at one of the listed distances, or the size of a string carries past 2^32; and reading a stream with complete tables is undefined only if one of its values is."
  },
  {
   "property": "C68",
   "status": "partial",
   "theorems": [
    "C68_json_document",
    "C68_json_of_a_stream",
    "C68_number_text",
    "C68_not_a_number",
    "C68_infinity_refuted",
    "C68_negative_number_refuted",
    "C68_date_refuted"
   ],
   "note": "Proved for every value except infinities and NaNs, for which the text is proved never to be JSON. Refuted: negative integers are shown modulo 2^64, and a date with identifier 10 in any set is shown as a duration. The text of a time is that of C10 and C11; on Windows times after the year 3000 are shown as \"invalid time\"."
  },
  {
   "property": "C69",
   "status": "partial",
   "theorems": [
    "C69_xml_document",
    "C69_date_refuted"
   ],
   "note": "The element is proved for every value; in strings the two angle brackets are exchanged (C08). Refuted for times: XML shows the number of 100 ns units where JSON shows a date."
  },
  {
   "property": "C70",
   "status": "partial",
   "theorems": [
    "C70_type_names",
    "C70_identifiers_distinct",
    "C70_property_names",
    "C70_reserved_identifiers_refuted"
   ],
   "note": "The names of types and the distinctness of names are proved for all numbers. Refuted: the reserved identifiers (such as 0x80000000, the locale) have names only in some sets."
  },
  {
   "property": "C71",
   "status": "partial",
   "theorems": [
    "C71_version_from_header",
    "C71_short_stream",
    "C71_no_extension",
    "C71_always_defined",
    "C71_old_formats_refuted"
   ],
   "note": "Proved for headers as in [MS-DOC] with at most 255 pairs, and the outcome of every other stream: streams below 154 bytes give 65535 and Unknown, longer counts and cut headers give nFib. Refuted for the formats before Word 97, which are also listed by name: they have no such extension, but bytes of their text are taken for one."
  },
  {
   "property": "C72",
   "status": "partial",
   "theorems": [
    "C72_visio_version",
    "C72_visio_undefined_iff",
    "C72_publisher_version",
    "C72_publisher_second_version",
    "C72_publisher_undefined_iff",
    "C72_visio_safe_refuted",
    "C72_publisher_safe_refuted",
    "C72_same_on_platforms_refuted"
   ],
   "note": "Refuted: neither function looks at the length. Proved for every stream: reading a Visio stream is undefined exactly below 28 bytes, a Publisher stream exactly below 6 bytes or when its first version is 300 and the second one is outside. The second version is at 16 on Linux and at 12 on Windows, so the same stream has two versions."
  },
  {
   "property": "C73",
   "status": "partial",
   "theorems": [
    "C73_version_windows",
    "C73_exact_outcome",
    "C73_name_of_near_build",
    "C73_name_of_build",
    "C73_misnamed_builds",
    "C73_version_linux_refuted",
    "C73_build_refuted"
   ],
   "note": "Proved on Windows for every pair of streams. Refuted on Linux, where the structures have members of eight bytes: the offset is read at 32 and the version at 24. The exact outcome on both platforms is a theorem; it is always defined. The names: proved for all builds but three. 3516 and 4208 (Office 97) are reported as Office XP and 4527 (Office 2000) as Office 2007, because the ranges of ten around the builds overlap."
  },
  {
   "property": "C74",
   "status": "proved",
   "theorems": [
    "C74_merge_module",
    "C74_patch_file",
    "C74_installer_file"
   ],
   "note": ""
  },
  {
   "property": "C75",
   "status": "partial",
   "theorems": [
    "C75_answer_iff",
    "C75_first_failure",
    "C75_every_entry_decided",
    "C75_file_not_opened"
   ],
   "note": "Stated as an equivalence: an answer is given exactly if every entry has a defined outcome, and it is that answer; otherwise the first failing entry decides. On Windows; the spreadsheet reader is a parameter. Linux is C79."
  },
  {
   "property": "C76",
   "status": "partial",
   "theorems": [
    "C76_kind_is_reported",
    "C76_reported_by_low_bytes",
    "C76_project_is_reported",
    "C76_nothing_else_reported",
    "C76_at_most_one_kind",
    "C76_only_kinds_refuted"
   ],
   "note": "Proved that all are reported and that every result comes from an entry. Refuted that only known names count: for four names the comparison without case looks at the low eight bits of each character only, so that a stream named with U+0157 for W is a workbook; the exact condition is in the theorems."
  },
  {
   "property": "C77",
   "status": "partial",
   "theorems": [
    "C77_no_variant",
    "C77_variant_reported_refuted"
   ],
   "note": "Refuted: the fifth field of the list is never copied. Proved: no result read from a kind has a variant, except installer files."
  },
  {
   "property": "C78",
   "status": "proved",
   "theorems": [
    "C78_calls_independent",
    "C78_list_grows"
   ],
   "note": "The list of kinds grows by 26 rows with each call; proved that this never shows."
  },
  {
   "property": "C79",
   "status": "partial",
   "theorems": [
    "C79_linux_exact",
    "C79_linux_documents_throw",
    "C79_same_on_linux_refuted"
   ],
   "note": "Refuted. Names are read with four bytes per character. Proved for every file: on Linux the result is the general one, or equation objects if some name has fifteen characters; and if a member of the root has a name whose second character is at least 17, which holds for all names in letters, printing JSON or XML throws range_error."
  },
  {
   "property": "C80",
   "status": "partial",
   "theorems": [
    "C80_never_answers",
    "C80_terminates_refuted"
   ],
   "note": "Refuted with a file of 3072 bytes whose storage is its own member. Proved: if some storage below the root can be reached from itself, no number of steps is enough. That all trees are finished is C75."
  },
  {
   "property": "C81",
   "status": "partial",
   "theorems": [
    "C81_undefined_without_version",
    "C81_error_reported",
    "C81_root_project_refuted"
   ],
   "note": "Refuted: for the storage /VBA the streams are looked for in /VBA/VBA, and reading the missing stream is undefined behaviour. Proved: a macro storage without VBA/_VBA_PROJECT always ends so; exceptions become a result with the subtype ERROR."
  },
  {
   "property": "C82",
   "status": "partial",
   "theorems": [
    "C82_json_document",
    "C82_fields_are_plain",
    "C82_paths_that_throw",
    "C82_text_before_zero"
   ],
   "note": "Proved for paths of Unicode characters. Paths with numbers above 0x10FFFF throw (proved). The fields of all results read from a kind meet the hypothesis (proved)."
  },
  {
   "property": "C83",
   "status": "proved",
   "theorems": [
    "C83_xml_document",
    "C83_text_and_csv"
   ],
   "note": "The document is well-formed, but between the elements for paths there are commas as text."
  },
  {
   "property": "C84",
   "status": "partial",
   "theorems": [
    "C84_signature_test",
    "C84_undefined_iff_short",
    "C84_defined_refuted"
   ],
   "note": "Proved for files of at least eight bytes; for shorter and missing files the test reads bytes that were never written (refuted)."
  },
  {
   "property": "C85",
   "status": "partial",
   "theorems": [
    "C85_declared_type_reported",
    "C85_single_quotes_refuted",
    "C85_spaces_refuted",
    "C85_after_empty_type_refuted",
    "C85_only_attributes_refuted"
   ],
   "note": "Proved for attributes written name=\"value\" with non-empty values (archives with macro projects are C89; the call is the first of the process, see C87). Refuted for the other ways XML writes an attribute: single quotes and spaces around the sign; refuted behind an empty value, which swallows the next attribute; and text in a comment is taken for an attribute."
  },
  {
   "property": "C86",
   "status": "partial",
   "theorems": [
    "C86_kinds_exact",
    "C86_every_archive",
    "C86_kinds_unique",
    "C86_archive_not_opened",
    "C86_reported_once_refuted"
   ],
   "note": "Exact for every archive that has no macro project (C89); total and unique. That no extension is reported twice holds for the types and is refuted for marker files: install.js with install.rdf gives xpi twice."
  },
  {
   "property": "C87",
   "status": "partial",
   "theorems": [
    "C87_second_call",
    "C87_calls_independent_refuted"
   ],
   "note": "Refuted: extensions reported once are kept in a global map and never reported again; a second identical docx is a plain zip. Exact: a second call on any archive reports its marker files only. The program itself examines one file per run."
  },
  {
   "property": "C88",
   "status": "partial",
   "theorems": [
    "C88_document_type_reported",
    "C88_presentation_never_odp",
    "C88_presentation_refuted",
    "C88_trailing_newline_refuted"
   ],
   "note": "Proved for all types but presentations, for which odp is never reported (opd is). A type followed by a line end is not recognised."
  },
  {
   "property": "C89",
   "status": "partial",
   "theorems": [
    "C89_macros_undefined",
    "C89_undefined_only_for_macros",
    "C89_macros_reported_refuted"
   ],
   "note": "Refuted: the temporary compound file is never opened, so the header of a stream that does not exist is read; behaviour is undefined for exactly the archives that declare a project and have an entry whose name ends in bin."
  },
  {
   "property": "C90",
   "status": "partial",
   "theorems": [
    "C90_json_document",
    "C90_xml_document",
    "C90_text_and_csv",
    "C90_any_name_json_refuted",
    "C90_any_name_xml_refuted",
    "C90_name_as_member_refuted"
   ],
   "note": "Proved for names and comments that need no escape (sizes: C91). Refuted otherwise: nothing is escaped; a name with a quote or an ampersand gives a text that is no document, and a name can add members."
  },
  {
   "property": "C91",
   "status": "partial",
   "theorems": [
    "C91_small_sizes",
    "C91_one_reading",
    "C91_large_size_refuted",
    "C91_sizes_distinguished_refuted"
   ],
   "note": "Proved below 2^31. Refuted above: the size is kept in an int; sizes from 2^31 on are shown negative, and sizes that differ by 2^32 are shown alike. Exact: the low 32 bits as a signed number."
  },
  {
   "property": "C92",
   "status": "partial",
   "theorems": [
    "C92_records_in_order",
    "C92_records_seen",
    "C92_plain_streams",
    "C92_last_record_refuted",
    "C92_data_of_last_record_refuted",
    "C92_each_record_built"
   ],
   "note": "Proved exactly for any stream against the records that are seen, and for streams of plain records without condition on the outcome. Refuted for the last record of a stream: it is dropped when it has no data (the final EOF record always) and reported without its data otherwise."
  },
  {
   "property": "C93",
   "status": "partial",
   "theorems": [
    "C93_version_of_first_record",
    "C93_no_version",
    "C93_short_first_record",
    "C93_any_stream_refuted"
   ],
   "note": "Proved whenever a result is returned. Refuted as a total claim: a stream that does not start with a BOF record of two bytes or more (or is empty) makes the function read a member that was never set, or read past the record."
  },
  {
   "property": "C94",
   "status": "proved",
   "theorems": [
    "C94_sheets_named",
    "C94_records_in_their_sheets"
   ],
   "note": "The place of every record is given exactly for every version: BIFF8 by offset, BIFF5 by counting BOF records, all others under the workbook."
  },
  {
   "property": "C95",
   "status": "partial",
   "theorems": [
    "C95_column_names",
    "C95_column_names_unique",
    "C95_cell_of_a_formula",
    "C95_cell_of_a_number",
    "C95_columns_of_blank_cells",
    "C95_other_cells",
    "C95_cell_of_a_number_refuted"
   ],
   "note": "Proved for the letters (with uniqueness) and for formulas. Refuted for numbers (RK): the column to the left is named, with no letter for column A; the columns of MulBlank records likewise. Blank, BoolErr and LabelSst records name the cell found in bytes 12 to 15 of their data, which are outside of a record of standard size."
  },
  {
   "property": "C96",
   "status": "partial",
   "theorems": [
    "C96_whole_numbers",
    "C96_negative_numbers",
    "C96_hundredths",
    "C96_negative_hundredths",
    "C96_floating_numbers",
    "C96_negative_numbers_refuted",
    "C96_hundredths_refuted",
    "C96_floating_numbers_refuted"
   ],
   "note": "Proved for non-negative integers. Exact results for the rest: negative integers are shown 2^30 too large, hundredths are cut off, and the upper 30 bits of a floating-point number are read as a number of 32 bits; each refuted with an example."
  },
  {
   "property": "C97",
   "status": "partial",
   "theorems": [
    "C97_output_exact",
    "C97_standard_cells",
    "C97_output_safe_refuted"
   ],
   "note": "Refuted; the exact condition is proved: the output is undefined if and only if a record that is printed through a pointer is shorter than its structure or has been continued, and otherwise both documents are written. Blank, BoolErr and LabelSst records of standard size are always shorter."
  },
  {
   "property": "C98",
   "status": "partial",
   "theorems": [
    "C98_strings_reported",
    "C98_bytes_of_strings",
    "C98_first_string",
    "C98_text_of_cells",
    "C98_wide_sheet_names",
    "C98_wide_strings_linux",
    "C98_wide_sheet_names_linux",
    "C98_characters_of_8_bits_refuted",
    "C98_formatted_strings_refuted",
    "C98_wide_strings_refuted"
   ],
   "note": "Proved for tables of plain strings: the bytes of each string are reported, in order. Refuted for characters of one byte from 128 (reported as the byte, not as UTF-8), for strings with formatting runs (the strings after them are read from the wrong place) and for two-byte characters outside of Windows; the exact outcome is given for each."
  },
  {
   "property": "C99",
   "status": "partial",
   "theorems": [
    "C99_formula_text",
    "C99_formula_of_any_tokens",
    "C99_defined_names",
    "C99_error_range_undefined",
    "C99_ranges_refuted",
    "C99_size_of_errors_refuted",
    "C99_natural_references_refuted",
    "C99_commands_refuted",
    "C99_tables_refuted",
    "C99_length_of_formula_refuted",
    "C99_wide_names_refuted"
   ],
   "note": "Proved for every list of tokens of the kinds that are read as the format defines them. Refuted for ranges on the same sheet (read one byte too early), for the size of three kinds of tokens (the tokens after them are read from the wrong place; an erroneous range on another sheet at the end is undefined), for commands (shown as functions with the same number), for data tables (cell named one row and column too low), for formulas followed by further data (read as tokens) and for names of two bytes per character. The exact text is given for any mixture of such tokens."
  },
  {
   "property": "C100",
   "status": "partial",
   "theorems": [
    "C100_value_reported",
    "C100_number_reported",
    "C100_small_numbers_refuted"
   ],
   "note": "Proved; numbers are shown with six decimals, rounded to nearest. That the number can be told from its text is refuted: small numbers are shown as 0.000000."
  },
  {
   "property": "C101",
   "status": "partial",
   "theorems": [
    "C101_reading_ends",
    "C101_fuel_is_enough",
    "C101_unknown_tokens_never_end",
    "C101_choose_never_ends",
    "C101_legal_formula_refuted",
    "C101_whole_stream_refuted"
   ],
   "note": "Proved for all streams in which no formula and no name has, at any place, a byte 0x18 or 0x19 followed by a byte that is not one of those known after it. Refuted in general: after such a pair where a token is expected reading stays at the same place for ever, and PtgAttrChoose moves it backwards, so that even a legal CHOOSE formula is never finished. The bound on the number of steps in the model is shown to be exact."
  },
  {
   "property": "C102",
   "status": "partial",
   "theorems": [
    "C102_workbook_json",
    "C102_one_document",
    "C102_shared_strings",
    "C102_user_name_refuted",
    "C102_path_refuted"
   ],
   "note": "Proved if the texts that are written without escaping (user name, code names, names of function groups, paths and sheets of other workbooks, names of their functions, and the text of the error) contain no quotation marks, backslashes, control characters or bytes from 127 on. Refuted without this condition: a user name with quotation marks or a path with backslashes makes the document ill-formed."
  },
  {
   "property": "C103",
   "status": "partial",
   "theorems": [
    "C103_workbook_xml",
    "C103_one_document",
    "C103_shared_strings",
    "C103_user_name_refuted",
    "C103_escaped_twice_refuted"
   ],
   "note": "Proved if the texts that are written without escaping contain no markup and only printable ASCII; less-than and greater-than are exchanged in escaped texts as in C08. Refuted without this condition (a user name with an ampersand), and for the result text of a formula, which is escaped and then put into a CDATA section, so that it is read with the escapes."
  },
  {
   "property": "C104",
   "status": "proved",
   "theorems": [
    "C104_answers_of_signatures",
    "C104_first_failure_decides",
    "C104_printed_results",
    "C104_arguments_of_the_program",
    "C104_missing_file"
   ],
   "note": "Exact for results and for failures; the library for archives is a parameter."
  },
  {
   "property": "C105",
   "status": "partial",
   "theorems": [
    "C105_answered_iff",
    "C105_all_outcomes",
    "C105_exception_iff",
    "C105_every_file_refuted"
   ],
   "note": "Refuted: a file of two bytes MZ is read out of bounds, a WordPerfect file has no defined JSON document, and a movie file of fewer than 15 bytes ends in an uncaught exception. The exact condition for an answer and the exact condition for the exception are proved for all files; there are no other outcomes."
  },
  {
   "property": "C106",
   "status": "proved",
   "theorems": [
    "C106_document",
    "C106_document_of_plain_files",
    "C106_document_of_archives"
   ],
   "note": "Proved for names without NUL. Which files are answered is C105, C108 and C109; the documents for compound files are in C109."
  },
  {
   "property": "C107",
   "status": "proved",
   "theorems": [
    "C107_document",
    "C107_document_of_plain_files",
    "C107_document_of_archives"
   ],
   "note": "Proved; names with angle brackets are shown with the brackets exchanged (exact condition)."
  },
  {
   "property": "C108",
   "status": "partial",
   "theorems": [
    "C108_answered_iff",
    "C108_macro_projects",
    "C108_every_archive_refuted"
   ],
   "note": "Refuted: the outcome is undefined for every archive with a macro project. Exact: an answer is given if and only if there is no macro project and the file is not a cut movie file."
  },
  {
   "property": "C109",
   "status": "proved",
   "theorems": [
    "C109_answered_iff",
    "C109_failure",
    "C109_json_document",
    "C109_xml_document"
   ],
   "note": "Exact. What the entries give is C75 to C81."
  },
  {
   "property": "C110",
   "status": "proved",
   "theorems": [
    "C110_json_document",
    "C110_xml_document",
    "C110_failure"
   ],
   "note": "Proved for workbooks whose renderings are defined (C97) and whose unescaped texts are plain (C102, C103)."
  },
  {
   "property": "C111",
   "status": "partial",
   "theorems": [
    "C111_numbers_of_records",
    "C111_fields_of_the_format",
    "C111_long_records_are_read",
    "C111_fields_of_the_format_refuted"
   ],
   "note": "Exact for all records: which numbers are reported and from which bits. Refuted for the listed fields: row and column of formulas, the columns, the height and the format of rows, the lock of a window, the icon and (on Windows) the format of external names, the highest version of a workbook, the pattern and colours of areas."
  },
  {
   "property": "C112",
   "status": "partial",
   "theorems": [
    "C112_obfuscation",
    "C112_rc4_header",
    "C112_provider_header_json",
    "C112_provider_header_xml",
    "C112_other_kinds",
    "C112_unknown_versions",
    "C112_hash_of_verifier_refuted",
    "C112_second_reserved_refuted"
   ],
   "note": "Exact documents for every kind. Refuted: the hash of the verifier of a provider is taken from the first bytes of the record, the second reserved number repeats the first, and unknown versions have no defined output."
  },
  {
   "property": "C113",
   "status": "proved",
   "theorems": [
    "C113_countries",
    "C113_names_are_unique",
    "C113_kinds_of_substreams",
    "C113_code_pages"
   ],
   "note": "Proved for all countries and substreams and for the code pages of Windows."
  },
  {
   "property": "C114",
   "status": "partial",
   "theorems": [
    "C114_paths",
    "C114_records_without_path",
    "C114_links",
    "C114_links_refuted",
    "C114_add_in_functions",
    "C114_other_names",
    "C114_names_without_link"
   ],
   "note": "Refuted for every path: the byte of flags is shown as the first character and the last character is lost; the names of the sheets are never shown. Exact for all links. The functions of add-ins are proved."
  },
  {
   "property": "C115",
   "status": "proved",
   "theorems": [
    "C115_blank_cells",
    "C115_area_colours",
    "C115_counts_of_strings"
   ],
   "note": "Proved; counts of 2^31 and more are shown as negative numbers. The column names are one less than in a spreadsheet, see C95."
  },
  {
   "property": "C116",
   "status": "partial",
   "theorems": [
    "C116_json_document",
    "C116_wordperfect_document",
    "C116_every_compound_file_refuted"
   ],
   "note": "Exact, with the value of every number and text. Refuted for files with a stream of WordPerfect: for all of them writing the document has no defined outcome."
  },
  {
   "property": "C117",
   "status": "partial",
   "theorems": [
    "C117_xml_document",
    "C117_wordperfect_document",
    "C117_every_compound_file_refuted"
   ],
   "note": "Exact, with the value of every number and text. Refuted for files with a stream of WordPerfect: for all of them writing the document has no defined outcome."
  },
  {
   "property": "C118",
   "status": "proved",
   "theorems": [
    "C118_lines",
    "C118_comma_separated"
   ],
   "note": "Proved: the bytes of the output are stated."
  },
  {
   "property": "C119",
   "status": "partial",
   "theorems": [
    "C119_one_entry_stops_the_program",
    "C119_answer_refuted"
   ],
   "note": "Refuted for all such entries: a drawing of fewer than 28 bytes, a publication without its version, a macro storage without its version stream and a workbook that cannot be read decide the outcome of the whole program, whatever is around them."
  },
  {
   "property": "C120",
   "status": "partial",
   "theorems": [
    "C120_lines_of_the_headers",
    "C120_signatures_of_files",
    "C120_signatures_of_entries",
    "C120_bytes_as_written",
    "C120_written_bytes_are_unique",
    "C120_trailing_comma_adds_a_byte_refuted",
    "C120_missing_comma_is_no_program",
    "C120_names_of_arrays",
    "C120_files_with_a_signature",
    "C120_files_without_signatures"
   ],
   "note": "Refuted for texts that end in a comma: the script accepts them, counts one byte more and the array ends in an additional zero byte, for all of them; constants without a comma between them are accepted by the script but are no program. No item of data.xml does either."
  },
  {
   "property": "C121",
   "status": "partial",
   "theorems": [
    "C121_tests_of_signatures",
    "C121_tests_of_times",
    "C121_tests_of_comparison",
    "C121_tests_of_trimming",
    "C121_tests_of_strings",
    "C121_tests_of_files",
    "C121_tests_of_bits",
    "C121_tests_of_bit_zero_refuted",
    "C121_tests_of_identifiers",
    "C121_tests_of_output"
   ],
   "note": "Refuted for the two checks of the bit with the number 0: for all numbers and counts the shift is by -1 and has no defined value. The checks of readBuffer, random_string and temp_filename, and of the invalid time on Windows are outside of the model; those of a colour are C137."
  },
  {
   "property": "C122",
   "status": "partial",
   "theorems": [
    "C122_only_listed_extensions",
    "C122_every_listed_extension",
    "C122_exactly_the_listed_extensions",
    "C122_formats_of_the_coverage_list",
    "C122_every_format_of_the_coverage_list_refuted",
    "C122_formats_not_on_the_coverage_list"
   ],
   "note": "Refuted for odp and wp5: coverage.csv lists both as identified, but no file whatsoever is reported with these extensions. OpenDocument presentations are reported as opd, WordPerfect 5 files as wp."
  },
  {
   "property": "C123",
   "status": "partial",
   "theorems": [
    "C123_other_words",
    "C123_shape_of_the_output",
    "C123_words_of_the_usage_refuted",
    "C123_words_in_capitals"
   ],
   "note": "Refuted for the words CSV, JSON and XML as README.md gives them in its usage: for all files they print the plain output."
  },
  {
   "property": "C124",
   "status": "partial",
   "theorems": [
    "C124_lines",
    "C124_comma_separated",
    "C124_documents_throw",
    "C124_documents_refuted",
    "C124_ends",
    "C124_ends_always_refuted"
   ],
   "note": "The program is proved to come to an end when the directory is a tree. Refuted: a compound file for which the program prints JSON and XML on Windows makes it end with an exception on Linux, and with a storage that is its own member it never ends."
  },
  {
   "property": "C125",
   "status": "partial",
   "theorems": [
    "C125_published_signatures",
    "C125_encapsulated_postscript",
    "C125_encapsulated_postscript_refuted",
    "C125_big_endian_captures",
    "C125_big_endian_captures_refuted",
    "C125_lzma_flash",
    "C125_lzma_flash_refuted",
    "C125_volume_descriptors",
    "C125_volume_descriptors_refuted"
   ],
   "note": "Refuted for Encapsulated PostScript (looked for at offset 41, where the word is only by accident, instead of 15), for captures of network traffic from big-endian machines, for Flash files compressed with LZMA and for the third descriptor of a volume (looked for one byte too early); exactly which of these files are reported is proved for all of them."
  },
  {
   "property": "C126",
   "status": "partial",
   "theorems": [
    "C126_machines",
    "C126_machines_without_words",
    "C126_characteristics",
    "C126_characteristics_refuted",
    "C126_subsystems",
    "C126_subsystems_refuted",
    "C126_boot_application_refuted",
    "C126_cpu_types",
    "C126_cpu_types_without_names",
    "C126_cpu_types_refuted",
    "C126_cpu_subtypes_partial",
    "C126_intel_models",
    "C126_cpu_subtypes_refuted",
    "C126_capabilities",
    "C126_capabilities_refuted"
   ],
   "note": "Refuted: the subsystems of firmware have the decimal codes 10 to 14, the program looks for the hexadecimal ones, so EFI applications have no subsystem and boot applications are called EFI applications; the reserved characteristic 64 is reported as REMOVABLE_RUN_FROM_SWAP; Mach-O files for ARM64 have no CPU; of the Intel subtypes with a model only the 486SX is right; a subtype with capability bits, as every 64-bit program for Intel machines has, is UNKNOWN. Exactly what is said for these codes is proved for all files."
  },
  {
   "property": "C127",
   "status": "partial",
   "theorems": [
    "C127_ends",
    "C127_other_files_end",
    "C127_asf_refuted",
    "C127_directory_refuted",
    "C127_chain_refuted",
    "C127_workbook_refuted"
   ],
   "note": "Proved for all such files and both platforms. Refuted without each of the conditions: an ASF file with an extended header of length zero, a storage that is its own member, a chain of sectors that comes back and a formula with PtgAttrChoose keep the program busy for ever; a file is given for each, together with the conditions it does meet."
  },
  {
   "property": "C128",
   "status": "partial",
   "theorems": [
    "C128_answered_iff",
    "C128_failures",
    "C128_rows",
    "C128_json_document",
    "C128_xml_document",
    "C128_objects_windows",
    "C128_objects_linux",
    "C128_documents_refuted"
   ],
   "note": "Proved, with the values of the objects computed from the bytes for objects without a parser of their own, on both platforms (the Linux values differ because `unsigned long` has eight bytes). Refuted for texts with a quote or an angle bracket: two files for which the document printed has no reading."
  },
  {
   "property": "C129",
   "status": "partial",
   "theorems": [
    "C129_rows",
    "C129_json_document",
    "C129_xml_document",
    "C129_documents_refuted"
   ],
   "note": "Proved for all archives the library reads whose kinds are determined (by C89 exactly those without a macro project) and that are not MP4 files at the same time. For plain archives the names and comments must hold no characters with a meaning in the document; refuted without that by two archives."
  },
  {
   "property": "C130",
   "status": "proved",
   "theorems": [
    "C130_every_file_has_a_kind",
    "C130_rows",
    "C130_json_document",
    "C130_xml_document",
    "C130_macho_rows",
    "C130_macho_json_document",
    "C130_macho_xml_document"
   ],
   "note": "Proved for all such files; files too short for their header are characterised by C105 and files with two of the signatures by C104."
  },
  {
   "property": "C131",
   "status": "partial",
   "theorems": [
    "C131_first_64_KiB_decide",
    "C131_appended_data",
    "C131_every_file_refuted"
   ],
   "note": "Proved for all such pairs; refuted without the condition on executables by two files that differ behind 64 KiB only and are reported as exe and as dll."
  },
  {
   "property": "C132",
   "status": "partial",
   "theorems": [
    "C132_parsers_called",
    "C132_rows",
    "C132_json_document",
    "C132_xml_document",
    "C132_missing_file",
    "C132_wordperfect",
    "C132_wordperfect_json_refuted"
   ],
   "note": "Proved for all such files; that a WordPerfect file has a JSON or XML document is refuted: the program reads a null pointer for every such file, in both formats."
  },
  {
   "property": "C133",
   "status": "partial",
   "theorems": [
    "C133_rows",
    "C133_json_document",
    "C133_xml_document",
    "C133_entries_are_determined",
    "C133_one_kind_refuted"
   ],
   "note": "Proved for all such files; that a file is reported as one kind is refuted by a sound that is reported as a film too."
  },
  {
   "property": "C134",
   "status": "partial",
   "theorems": [
    "C134_json_document",
    "C134_xml_document",
    "C134_rows",
    "C134_cells_are_determined",
    "C134_all_details_refuted",
    "C134_versions_in_xml_refuted"
   ],
   "note": "Proved for all files. Refuted: that all details are shown. Two files with different characteristics of a library give the same documents, and two with different versions of the linker give the same XML. The version cell is 0 for every file and is written twice. The program never calls these methods, as they are not const (C30)."
  },
  {
   "property": "C135",
   "status": "partial",
   "theorems": [
    "C135_json_document",
    "C135_xml_document",
    "C135_csv_row",
    "C135_text_row",
    "C135_json_of_every_film_refuted",
    "C135_xml_of_every_film_refuted",
    "C135_five_columns_refuted"
   ],
   "note": "Proved for codes of printable characters without quotes, backslashes or markup; refuted for others, as the code is not escaped. The CSV row has five cells exactly if the code has no comma and is none of fifteen listed codes, whose names have commas; the text row exactly if the code has no tab."
  },
  {
   "property": "C136",
   "status": "partial",
   "theorems": [
    "C136_csv_row",
    "C136_text_row",
    "C136_eight_columns_refuted"
   ],
   "note": "Proved to hold exactly if the name does not have the separator in it; refuted for other names."
  },
  {
   "property": "C137",
   "status": "partial",
   "theorems": [
    "C137_bytes_of_a_colour",
    "C137_safe_iff",
    "C137_safe_refuted",
    "C137_text_of_a_colour",
    "C137_text_determines_colour",
    "C137_csv_row",
    "C137_unit_tests"
   ],
   "note": "Values, text and row proved for every colour. Refuted that reading stays in the buffer: the size is not looked at; reading is undefined exactly if one of the four bytes lies outside (C137_safe_iff). The JSON and XML of a colour are C115."
  },
  {
   "property": "C138",
   "status": "partial",
   "theorems": [
    "C138_json_name",
    "C138_xml_name",
    "C138_every_number_has_one_name",
    "C138_number_from_name",
    "C138_unlisted_numbers_refuted"
   ],
   "note": "Proved for the 353 listed numbers; every other number is shown as undocumented. Refuted that the number can be told for these: records with different numbers give the same documents. The list was sorted by a script from the code's own table and not compared with [MS-XLS]: this fixes the table, it does not show conformity."
  },
  {
   "property": "C139",
   "status": "partial",
   "theorems": [
    "C139_words_of_the_stack_size",
    "C139_characteristics_refuted",
    "C139_other_words_refuted"
   ],
   "note": "Refuted: the structure has members of four bytes where the format has two, so the words are those of the bits of the size of the stack that follows the field. Exact for all files: each word is recorded if and only if this bit of the stack size is set; for three bits (high entropy, app container, control flow guard) there are no words. The bits of the format are from memory, with no copy of the specification at hand."
  },
  {
   "property": "C140",
   "status": "partial",
   "theorems": [
    "C140_published_names",
    "C140_labels_of_objects",
    "C140_label_of_content_descriptions",
    "C140_compatibility_object",
    "C140_other_guids",
    "C140_every_name_refuted"
   ],
   "note": "Proved for 61 of the 62 published GUIDs, and for their objects except content descriptions, which are labelled as header extensions. Refuted for the compatibility object: its published GUID is unknown to the program, as the list has that of the header instead. The list of GUIDs is from memory after reading the code, with no copy of the specification at hand."
  },
  {
   "property": "C141",
   "status": "partial",
   "theorems": [
    "C141_listed_pages",
    "C141_unlisted_pages",
    "C141_gb18030",
    "C141_pages_of_old_workbooks",
    "C141_every_page_refuted"
   ],
   "note": "Proved for 151 of the 152 listed numbers and for all unlisted ones. Refuted for 54936 (GB18030), whose description has a question mark in place of a space. The list was copied by a script from the code's own table with this one name corrected and not compared with the published one: it fixes the table, it does not show conformity."
  },
  {
   "property": "C142",
   "status": "partial",
   "theorems": [
    "C142_described_brands",
    "C142_other_brands",
    "C142_brands_in_use_refuted"
   ],
   "note": "Proved for the 58 listed brands; every other code is recorded as unknown, exactly. Refuted for nine further brands in use. The phrases and the further brands are from memory, the phrases after reading the code's table, with no copy of the register of brands at hand; iso3 and iso4 share one phrase, so these two rows could be exchanged."
  }
 ]
}