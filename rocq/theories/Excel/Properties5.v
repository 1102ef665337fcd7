(** Properties of the numbers, encryption headers, codes and links in workbooks.  Statements only; the vocabulary is in
    [Excel/FieldSpec.v], [Excel/FieldStatements.v], [Excel/Statements.v] and [Magic/Spec.v], the examples in
    [Excel/PropertyLemmas5.v]. *)
From Coq Require Import List NArith ZArith Bool Strings.String Strings.Byte.
From Verif Require Import Lib.Res Lib.Bytes Lib.Text Common.Model Common.Utf8 Common.Spec Excel.Model Excel.Records Excel.Engine
     Excel.Spec Excel.Statements Excel.TextStatements Vba.Statements Excel.DocStatements Excel.FieldSpec Excel.FieldStatements
     Excel.PropertyLemmas5 Magic.Spec.
Import ListNotations.
Local Open Scope N_scope.

(** ** C111: the numbers in records *)
Theorem C111_numbers_of_records : forall p before t d r l, built p before 0x600 t d r -> fields p r = Ok l ->
  forall name v, In (fld name (Num v)) l <-> exists q, In (name, q) (readings (on_windows p) t) /\ v = taken d q.
Proof. exact C111_all. Qed.
Print Assumptions C111_numbers_of_records.

Theorem C111_fields_of_the_format : forall p before t d r l name pos width, built p before 0x600 t d r -> fields p r = Ok l ->
  stands t name pos width -> (forall q, ~ In (name, q) (misread (on_windows p) t)) ->
  In (fld name (Num (bit_field d pos width))) l.
Proof. exact C111_right. Qed.
Print Assumptions C111_fields_of_the_format.

Theorem C111_long_records_are_read : forall p before t d, In t [0x19; 0x42; 0x9C; 0x208; 0x27E; 0x809; 0x100A] -> needed (on_windows p) t <= lenN d ->
  exists r l, built p before 0x600 t d r /\ fields p r = Ok l.
Proof. exact C111_read. Qed.
Print Assumptions C111_long_records_are_read.

Theorem C111_fields_of_the_format_refuted : forall p t name q, In (name, q) (misread (on_windows p) t) ->
  exists before d r l pos width, built p before 0x600 t d r /\ fields p r = Ok l /\ stands t name pos width /\
    In (fld name (Num (taken d q))) l /\ taken d q <> bit_field d pos width.
Proof. exact C111_wrong. Qed.
Print Assumptions C111_fields_of_the_format_refuted.

Example C111_example : forall p before, exists r, built p before 0x600 0x208 (mixed) r /\
  shows p r "colMic" (Num 0x4556) /\ bit_field mixed 16 16 = 0x3423 /\ stands 0x208 "colMic" 16 16.
Proof. exact C111_row. Qed.

(** ** C112: encryption headers *)
Theorem C112_obfuscation : forall p before d r t u, built p before 0x600 0x2F d r -> bit_field d 0 16 = 0 -> record_json p r = Ok t -> record_xml p r = Ok u ->
  json_value t (record_of "FilePass" d [jfield (B "EncryptionType") (B "XOR"); jbits d "XorKey" 16 16; jbits d "XorVerification" 32 16]) /\
  xml_content u [element_of "FilePass" d [xfield (B "EncryptionType") (B "XOR"); xbits d "XorKey" 16 16; xbits d "XorVerification" 32 16]].
Proof. exact C112_xor. Qed.
Print Assumptions C112_obfuscation.

Theorem C112_rc4_header : forall p before d r t u, built p before 0x600 0x2F d r -> bit_field d 0 16 = 1 -> bit_field d 16 16 = 1 -> bit_field d 32 16 = 1 ->
  record_json p r = Ok t -> record_xml p r = Ok u ->
  exists s sa v ve h ha, window d 6 16 s /\ hex_dump sa s /\ window d 22 16 v /\ hex_dump ve v /\ window d 38 16 h /\ hex_dump ha h /\
    json_value t (record_of "FilePass" d (rc4_start_json d ++
      [jfield (B "Salt") sa; jfield (B "EncryptedVerifier") ve; jfield (B "EncryptedVerifierHash") ha])) /\
    xml_content u [element_of "FilePass" d (rc4_start_xml d ++
      [xfield (B "Salt") sa; xfield (B "EncryptedVerifier") ve; xfield (B "EncryptedVerifierHash") ha])].
Proof. exact C112_rc4. Qed.
Print Assumptions C112_rc4_header.

Theorem C112_provider_header_json : forall p before d r t, built p before 0x600 0x2F d r -> bit_field d 0 16 = 1 -> 2 <= bit_field d 16 16 <= 4 ->
  bit_field d 32 16 = 2 -> record_json p r = Ok t ->
  exists name salt sa ver ve hash ha, let v := bit_field d 80 32 + 14 in
    window d (v + 4) 16 salt /\ hex_dump sa salt /\ window d (v + 20) 16 ver /\ hex_dump ve ver /\
    window d 0 (bit_field d (8 * (v + 36)) 32) hash /\ hex_dump ha hash /\
    (sizeof_wchar p = 2 -> forall u, Forall scalar u -> Forall (fun c => c < 65536) u -> 2 * lenN u + 46 = v ->
       window d 46 (2 * lenN u) (units 2 u) -> utf8 name (filter (fun c => negb (c =? 0)) u)) /\
    json_value t (record_of "FilePass" d (crypto_json d 304 name v sa ve ha)).
Proof. exact C112_crypto_json. Qed.
Print Assumptions C112_provider_header_json.

Theorem C112_provider_header_xml : forall p before d r t, built p before 0x600 0x2F d r -> bit_field d 0 16 = 1 -> 2 <= bit_field d 16 16 <= 4 ->
  bit_field d 32 16 = 2 -> record_xml p r = Ok t ->
  exists name salt sa ver ve hash ha, let v := bit_field d 80 32 + 14 in
    window d (v + 4) 16 salt /\ hex_dump sa salt /\ window d (v + 20) 16 ver /\ hex_dump ve ver /\
    window d 0 (bit_field d (8 * (v + 36)) 32) hash /\ hex_dump ha hash /\
    (sizeof_wchar p = 2 -> forall u, Forall scalar u -> Forall (fun c => c < 65536) u -> 2 * lenN u + 46 = v ->
       window d 46 (2 * lenN u) (units 2 u) -> utf8 name (filter (fun c => negb (c =? 0)) u)) /\
    xml_content t [element_of "FilePass" d (crypto_xml d 304 name v sa ve ha)].
Proof. exact C112_crypto_xml. Qed.
Print Assumptions C112_provider_header_xml.

Theorem C112_other_kinds : forall p before d r t u, built p before 0x600 0x2F d r -> 2 <= bit_field d 0 16 -> record_json p r = Ok t -> record_xml p r = Ok u ->
  json_value t (record_of "FilePass" d [jbits d "EncryptionType" 0 16]) /\
  xml_content u [element_of "FilePass" d [xbits d "EncryptionType" 0 16]].
Proof. exact C112_others. Qed.
Print Assumptions C112_other_kinds.

Theorem C112_unknown_versions : forall p before d r, built p before 0x600 0x2F d r -> bit_field d 0 16 = 1 ->
  ~ (2 <= bit_field d 16 16 <= 4 /\ bit_field d 32 16 = 2) -> ~ (bit_field d 16 16 = 1 /\ bit_field d 32 16 = 1) ->
  record_json p r = UB /\ record_xml p r = UB.
Proof. exact C112_unset. Qed.
Print Assumptions C112_unknown_versions.

Theorem C112_hash_of_verifier_refuted : exists d r t v hash name sa ve ha, built windows [] 0x600 0x2F d r /\ record_json windows r = Ok t /\
  bit_field d 0 16 = 1 /\ bit_field d 16 16 = 2 /\ bit_field d 32 16 = 2 /\ v = bit_field d 80 32 + 14 /\
  window d (v + 40) (bit_field d (8 * (v + 36)) 32) hash /\
  json_value t (record_of "FilePass" d (crypto_json d 304 name v sa ve ha)) /\ ~ hex_dump ha hash.
Proof. exact C112_hash. Qed.
Print Assumptions C112_hash_of_verifier_refuted.

Theorem C112_second_reserved_refuted : forall p before d r t name v sa ve ha, built p before 0x600 0x2F d r -> bit_field d 0 16 = 1 ->
  2 <= bit_field d 16 16 <= 4 -> bit_field d 32 16 = 2 -> record_json p r = Ok t -> bit_field d 304 32 <> bit_field d 336 32 ->
  ~ json_value t (record_of "FilePass" d (crypto_json d 336 name v sa ve ha)).
Proof. exact C112_reserved. Qed.
Print Assumptions C112_second_reserved_refuted.

Example C112_example_of_provider : exists d r t, built windows [] 0x600 0x2F d r /\ bit_field d 0 16 = 1 /\ bit_field d 16 16 = 2 /\
  bit_field d 32 16 = 2 /\ record_json windows r = Ok t /\ bit_field d 304 32 = 5 /\ bit_field d 336 32 = 6.
Proof. exact C112_reserved_sample. Qed.

Example C112_example : exists r, built linux64 [] 0x600 0x2F (to_le 2 0 ++ to_le 2 0x1234 ++ to_le 2 0xABCD) r /\
  record_json linux64 r = Ok (B "{""Type"":""FilePass"",""Length"":6,""EncryptionType"":""XOR"",""XorKey"": 4660,""XorVerification"":43981}").
Proof. exact C112_ex. Qed.

(** ** C113: codes *)
Theorem C113_countries : forall p before d r t u a b, built p before 0x600 0x8C d r -> record_json p r = Ok t -> record_xml p r = Ok u ->
  code_name countries (bit_field d 0 16) a -> code_name countries (bit_field d 16 16) b ->
  json_value t (record_of "Country" d
    [jmem "WorkbookLocale" (JObj [jbits d "Code" 0 16; jfield (B "Name") (B a)]);
     jmem "OSLocale" (JObj [jbits d "Code" 16 16; jfield (B "Name") (B b)])]) /\
  xml_content u [element_of "Country" d
    [xel "WorkbookLocale" [xbits d "Code" 0 16; xfield (B "Name") (B a)];
     xel "OSLocale" [xbits d "Code" 16 16; xfield (B "Name") (B b)]]].
Proof. exact C113_country. Qed.
Print Assumptions C113_countries.

Theorem C113_names_are_unique : forall l c s t, In l [countries; substreams] -> code_name l c s -> code_name l c t -> s = t.
Proof. exact C113_one_name. Qed.
Print Assumptions C113_names_are_unique.

Theorem C113_kinds_of_substreams : forall p before d r l s, built p before 0x600 0x809 d r -> fields p r = Ok l -> code_name substreams (bit_field d 16 16) s ->
  forall v, In (fld "DocumentTypeStr" v) l <-> v = Str (B s).
Proof. exact C113_substream. Qed.
Print Assumptions C113_kinds_of_substreams.

Theorem C113_code_pages : forall p before d r l s, built p before 0x600 0x42 d r -> fields p r = Ok l -> In (bit_field d 0 16, s) windows_pages ->
  l = [fld "CodePage" (Num (bit_field d 0 16)); fld "CodePageStr" (Esc (B s))].
Proof. exact C113_page. Qed.
Print Assumptions C113_code_pages.

Example C113_example : code_name countries 49 "Germany" /\ code_name countries 50 "Unknown" /\ code_name substreams 16 "Sheet" /\
  (exists r, built linux64 [] 0x600 0x8C (to_le 2 49 ++ to_le 2 50) r /\
    record_json linux64 r = Ok (B "{""Type"":""Country"",""Length"":4,""WorkbookLocale"" : { ""Code"":49, ""Name"": ""Germany""},""OSLocale"" : { ""Code"":50, ""Name"": ""Unknown""}}")) /\
  exists r, built linux64 [] 0x600 0x42 (to_le 2 1252) r /\
    fields linux64 r = Ok [fld "CodePage" (Num 1252); fld "CodePageStr" (Esc (B "ANSI Latin 1; Western European (Windows)"))].
Proof. exact C113_ex. Qed.

(** ** C114: links *)
Theorem C114_paths : forall p before d r l, built p before 0x600 0x1AE d r -> fields p r = Ok l -> 1 <= bit_field d 16 16 <= 255 -> 4 < lenN d ->
  exists w, window d 4 (bit_field d 16 16) w /\
    l = [fld "ctab" (Num (bit_field d 0 16)); fld "cch" (Num (bit_field d 16 16)); fld "virtPath" (Str w)].
Proof. exact C114_path. Qed.
Print Assumptions C114_paths.

Theorem C114_records_without_path : forall p before d r l v, built p before 0x600 0x1AE d r -> fields p r = Ok l ->
  In (fld "virtPath" v) l -> 1 <= bit_field d 16 16 <= 255 /\ 4 < lenN d.
Proof. exact C114_no_path. Qed.
Print Assumptions C114_records_without_path.

Theorem C114_links : forall p before sheets path names r l, sheets < 2 ^ 16 -> 1 <= lenN path <= 255 ->
  built p before 0x600 0x1AE (link_data sheets path names) r -> fields p r = Ok l ->
  l = [fld "ctab" (Num sheets); fld "cch" (Num (lenN path)); fld "virtPath" (Str (x00 :: removelast path))].
Proof. exact C114_link. Qed.
Print Assumptions C114_links.

Theorem C114_links_refuted : forall p before sheets path names r, sheets < 2 ^ 16 -> 1 <= lenN path <= 255 -> ~ In x00 path ->
  built p before 0x600 0x1AE (link_data sheets path names) r -> ~ shows p r "virtPath" (Str path) /\ forall v, ~ shows p r "rgst" v.
Proof. exact C114_wrong. Qed.
Print Assumptions C114_links_refuted.

Example C114_example : exists r, built linux64 [] 0x600 0x1AE (link_data 1 (B "b.xls") (to_le 2 2 ++ x00 :: B "S1")) r /\
  fields linux64 r = Ok [fld "ctab" (Num 1); fld "cch" (Num 5); fld "virtPath" (Str (x00 :: B "b.xl"))].
Proof. exact C114_link_ex. Qed.

Theorem C114_add_in_functions : forall p before0 ds rs before flags reserved high name more r l,
  flags < 2 ^ 16 -> reserved < 2 ^ 32 -> high < 128 -> lenN name < 256 ->
  built p before0 0x600 0x1AE ds rs -> bit_field ds 16 16 = 0x3A01 -> last_of_type 0x1AE before rs ->
  built p before 0x600 0x23 (add_in_data flags reserved high name more) r -> fields p r = Ok l ->
  forall v, In (fld "addinUdf" v) l <-> v = Str name.
Proof. exact C114_function. Qed.
Print Assumptions C114_add_in_functions.

Theorem C114_other_names : forall p before0 ds rs before d r l v, built p before0 0x600 0x1AE ds rs -> bit_field ds 16 16 <> 0x3A01 ->
  last_of_type 0x1AE before rs -> built p before 0x600 0x23 d r -> fields p r = Ok l -> ~ In (fld "addinUdf" v) l.
Proof. exact C114_no_function. Qed.
Print Assumptions C114_other_names.

Theorem C114_names_without_link : forall p before d r l v, Forall (fun x => r_type x <> 0x1AE) before ->
  built p before 0x600 0x23 d r -> fields p r = Ok l -> ~ In (fld "addinUdf" v) l.
Proof. exact C114_no_link. Qed.
Print Assumptions C114_names_without_link.

Example C114_example_of_function : exists rs r l, built linux64 [] 0x600 0x1AE (to_le 2 1 ++ to_le 2 0x3A01) rs /\
  bit_field (to_le 2 1 ++ to_le 2 0x3A01) 16 16 = 0x3A01 /\ last_of_type 0x1AE [rs] rs /\
  built linux64 [rs] 0x600 0x23 (add_in_data 0 0 0 (B "EDATE") [x02; x00; x1c; x17]) r /\ fields linux64 r = Ok l /\
  In (fld "addinUdf" (Str (B "EDATE"))) l.
Proof. exact C114_function_ex. Qed.

(** ** C115: blank cells, colours and counts *)
Theorem C115_blank_cells : forall p before row first formats, row < 2 ^ 16 -> formats <> [] -> first + lenN formats <= 2 ^ 16 ->
  Forall (fun x => x < 2 ^ 16) formats ->
  exists r a b t u, built p before 0x600 0xBE (blank_data row first formats) r /\
    fields p r = Ok [fld "rw" (Num row); fld "colFirst" (Str a); fld "colLast" (Str b); fld "rgixfe" (Raw t u)] /\
    column first a /\ column (first + lenN formats - 1) b /\ json_value t (JArr (map JNum formats)) /\ xml_content u (map (xnum "ixfe") formats).
Proof. exact C115_blanks. Qed.
Print Assumptions C115_blank_cells.

Theorem C115_area_colours : forall p before d r l, built p before 0x600 0x100A d r -> fields p r = Ok l ->
  exists tf uf tb ub, In (fld "rgbFore" (Raw tf uf)) l /\ In (fld "rgbBack" (Raw tb ub)) l /\
    json_value tf (JObj [jbits d "red" 0 8; jbits d "green" 8 8; jbits d "blue" 16 8; jbits d "reserved" 24 8]) /\
    xml_content uf [xel "LongRGB" [xbits d "red" 0 8; xbits d "green" 8 8; xbits d "blue" 16 8; xbits d "reserved" 24 8]] /\
    json_value tb (JObj [jbits d "red" 32 8; jbits d "green" 40 8; jbits d "blue" 48 8; jbits d "reserved" 56 8]) /\
    xml_content ub [xel "LongRGB" [xbits d "red" 32 8; xbits d "green" 40 8; xbits d "blue" 48 8; xbits d "reserved" 56 8]].
Proof. exact C115_colours. Qed.
Print Assumptions C115_area_colours.

Theorem C115_counts_of_strings : forall p before d r l, built p before 0x600 0xFC d r -> fields p r = Ok l ->
  exists a b, (forall v, In (fld "cstTotal" v) l <-> v = Int a) /\ (forall v, In (fld "cstUnique" v) l <-> v = Int b) /\
    (- 2 ^ 31 <= a < 2 ^ 31 /\ a mod 2 ^ 32 = Z.of_N (bit_field d 0 32))%Z /\ (- 2 ^ 31 <= b < 2 ^ 31 /\ b mod 2 ^ 32 = Z.of_N (bit_field d 32 32))%Z.
Proof. exact C115_counts. Qed.
Print Assumptions C115_counts_of_strings.

Example C115_example : (exists r, built linux64 [] 0x600 0xBE (blank_data 4 2 [15; 16; 17]) r /\
    record_json linux64 r = Ok (B "{""Type"":""MulBlank"",""Length"":12,""rw"":4,""colFirst"":""B"",""colLast"":""D"",""rgixfe"":[15,16,17]}")) /\
  (exists r, built linux64 [] 0x600 0x100A (map n2b [1; 2; 3; 0; 4; 5; 6; 0; 1; 0; 1; 0; 8; 0; 9; 0]) r /\
    record_xml linux64 r = Ok (B "<Record><Type>AreaFormat</Type><Length>16</Length><rgbFore><LongRGB><red>1</red><green>2</green><blue>3</blue><reserved>0</reserved></LongRGB></rgbFore><rgbBack><LongRGB><red>4</red><green>5</green><blue>6</blue><reserved>0</reserved></LongRGB></rgbBack><fls>256</fls><A>1</A><B>0</B><reserved>1</reserved><ivcFore>2048</ivcFore><ivcBack>2304</ivcBack></Record>")) /\
  exists r, built linux64 [] 0x600 0xFC (to_le 4 7 ++ to_le 4 0) r /\
    fields linux64 r = Ok [fld "cstTotal" (Int 7); fld "cstUnique" (Int 0)].
Proof. exact C115_ex. Qed.
