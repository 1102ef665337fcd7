(** Properties C66-C70: property set streams.  Statements only; the vocabulary is in
    [Propset/Spec.v] and [Propset/Statements.v], the examples in [Propset/Samples.v]. *)
From Coq Require Import List NArith ZArith Bool Strings.String.
From Verif Require Import Lib.Res Lib.Bytes Lib.Text Common.Model Common.Spec Common.Fields Common.Utf8 Magic.Spec Vba.Statements
     Ole.Model Propset.Model Propset.Output Propset.Spec Propset.Statements Propset.StreamProofs Propset.MemoryProofs Propset.NumberProofs
     Propset.DocProofs Propset.WideProofs Propset.Samples Propset.PropertyLemmas.
Import ListNotations.
Local Open Scope N_scope.

(** ** C66: reading property sets *)
Theorem C66_reports_stored_values : forall pl buf sets, lenN buf + 12 < 2 ^ 32 -> property_sets buf sets ->
  none_of is_name sets -> none_of is_i4 sets -> (pl = windows \/ none_of is_wide sets) ->
  exists l, ParseBytes pl buf = Ok l /\ Forall2 (reports_as shows) (all_entries sets) l.
Proof. exact C66_exact. Qed.
Print Assumptions C66_reports_stored_values.

Theorem C66_reports_all_values : forall pl buf sets, lenN buf + 12 < 2 ^ 32 -> property_sets buf sets -> none_of is_name sets ->
  (pl = windows \/ none_of is_wide sets) ->
  exists l, ParseBytes pl buf = Ok l /\ Forall2 (reports_as taken) (all_entries sets) l.
Proof. exact C66_general. Qed.
Print Assumptions C66_reports_all_values.

Theorem C66_bytes_of_the_stream : forall pl s name e, open_stream pl s name = Ok (Some e) ->
  ParseStream pl s e = (m <- ReadStream pl s name ;; match known m with Some buf => ParseBytes pl buf | None => UB end).
Proof. exact C66_stream. Qed.
Print Assumptions C66_bytes_of_the_stream.

Theorem C66_wide_strings_and_names : forall buf off t u pid f, lenN buf + 12 < 2 ^ 32 -> In t [31; 66; 67; 68; 69] -> number_at buf off 2 t ->
  number_at buf (off + 4) 4 (lenN u + 1) -> Forall (fun c => c < 65536) u -> window buf (off + 8) (2 * lenN u) (units 2 u) ->
  exists s, ReadProperty windows buf off pid f = Ok (mkProp pid f t (VString s)) /\ ~ In x00 s /\
    (Forall scalar u -> utf8 s (filter (fun c => negb (c =? 0)) u)).
Proof. exact C66_name_windows. Qed.
Print Assumptions C66_wide_strings_and_names.

Theorem C66_wide_strings_linux : forall buf sets, lenN buf + 12 < 2 ^ 32 -> property_sets buf sets -> none_of is_name sets ->
  Exists (fun ge => long_wide (e_value (snd ge)) = true) (all_entries sets) ->
  ParseBytes linux64 buf = Throw RangeError.
Proof. exact C66_linux_throws. Qed.
Print Assumptions C66_wide_strings_linux.

Theorem C66_four_byte_integers_refuted : exists buf sets l, property_sets buf sets /\ ParseBytes windows buf = Ok l /\ ParseBytes linux64 buf = Ok l /\
  map (fun ge => e_value (snd ge)) (all_entries sets) = [SI4 1] /\ map p_value l = [VInt 16777216].
Proof. exact C66_i4_refuted. Qed.
Print Assumptions C66_four_byte_integers_refuted.

Theorem C66_wide_strings_linux_refuted : exists buf sets, property_sets buf sets /\ none_of is_name sets /\
  Exists (fun ge => long_wide (e_value (snd ge)) = true) (all_entries sets) /\
  ParseBytes linux64 buf = Throw RangeError /\ exists l, ParseBytes windows buf = Ok l.
Proof. exact C66_wide_linux_refuted. Qed.
Print Assumptions C66_wide_strings_linux_refuted.

Theorem C66_names_refuted : exists buf sets l, property_sets buf sets /\ ParseBytes windows buf = Ok l /\
  e_value (snd (nth 0 (all_entries sets) ([], mkEntry 0 0 (SOther 0)))) = SName 66 (B "prop4" ++ [x00]) /\
  exists s r, map p_value l = VString s :: r /\ s <> B "prop4".
Proof. exact C66_name_refuted. Qed.
Print Assumptions C66_names_refuted.

Example C66_example : lenN summary_bytes + 12 < 2 ^ 32 /\ property_sets summary_bytes [summary] /\ none_of is_name [summary] /\
  none_of is_i4 [summary] /\ none_of is_wide [summary] /\ none_of is_special [summary] /\ lenN (all_entries [summary]) = 9.
Proof. exact C66_ex. Qed.

(** ** C67: memory *)
Theorem C67_always_ends : forall pl buf, lenN buf < 2 ^ 32 -> ParseBytes pl buf <> Fuel.
Proof. exact C67_terminates. Qed.
Print Assumptions C67_always_ends.

Theorem C67_results_come_from_the_tables : forall pl buf l, lenN buf < 2 ^ 32 -> buf <> [] -> ParseBytes pl buf = Ok l ->
  exists ts, tables_in buf ts /\ Forall2 (placed buf) (places ts) l.
Proof. exact C67_inside. Qed.
Print Assumptions C67_results_come_from_the_tables.

Theorem C67_short_streams : forall pl buf, lenN buf < 28 ->
  ParseBytes pl buf = if lenN buf =? 0 then Ok [] else Throw RangeError.
Proof. exact C67_small. Qed.
Print Assumptions C67_short_streams.

Theorem C67_reading_a_value : forall pl buf off pid f, lenN buf + 12 < 2 ^ 32 -> off < 2 ^ 32 ->
  (ReadProperty pl buf off pid f = UB <->
   lenN buf < off + 2 \/ exists t, number_at buf off 2 t /\ value_overrun buf off t).
Proof. exact C67_value_exact. Qed.
Print Assumptions C67_reading_a_value.

Theorem C67_memory_safe : forall pl buf ts, lenN buf + 12 < 2 ^ 32 -> tables_in buf ts ->
  Forall (fun place => ~ (lenN buf < snd place mod 2 ^ 32 + 2 \/
                          exists t, number_at buf (snd place mod 2 ^ 32) 2 t /\ value_overrun buf (snd place mod 2 ^ 32) t)) (places ts) ->
  ParseBytes pl buf <> UB.
Proof. exact C67_safe. Qed.
Print Assumptions C67_memory_safe.

Theorem C67_long_table_refuted : exists buf, lenN buf = 56 /\ ParseBytes windows buf = UB /\ ParseBytes linux64 buf = UB.
Proof. exact C67_table_refuted. Qed.
Print Assumptions C67_long_table_refuted.

Theorem C67_wide_string_refuted : exists buf, lenN buf = 72 /\ ParseBytes windows buf = UB /\ ParseBytes linux64 buf = UB.
Proof. exact C67_wide_refuted. Qed.
Print Assumptions C67_wide_string_refuted.

Example C67_example : tables_in summary_bytes summary_tables /\ lenN (places summary_tables) = 9 /\
  exists l, ParseBytes linux64 summary_bytes = Ok l.
Proof. exact C67_ex. Qed.

(** ** C68: JSON *)
Theorem C68_json_document : forall pl p, value_ok (p_value p) -> is_finite (p_value p) ->
  exists j, json_value (ToJson pl p) (property_object (PropertyIdentifierToString (p_fmt p) (p_pid p)) (PropertyTypeToString (p_type p)) j) /\
    json_shows pl (p_pid p) (p_type p) (p_value p) j.
Proof. exact property_json. Qed.
Print Assumptions C68_json_document.

Theorem C68_json_of_a_stream : forall pl buf sets, lenN buf + 12 < 2 ^ 32 -> property_sets buf sets -> none_of is_name sets ->
  (pl = windows \/ none_of is_wide sets) -> none_of is_special sets ->
  exists l, ParseBytes pl buf = Ok l /\ Forall2 (json_entry pl) (all_entries sets) l.
Proof. exact C68_stream. Qed.
Print Assumptions C68_json_of_a_stream.

Theorem C68_number_text : forall pl neg m e, in_range m e -> exists v, json_value (double_text pl (Num neg m e)) v /\ nearest_six neg m e v.
Proof. exact number_text. Qed.
Print Assumptions C68_number_text.

Theorem C68_not_a_number : forall pl p, ~ is_finite (p_value p) -> forall j, ~ json_value (ToJson pl p) j.
Proof. exact special_json. Qed.
Print Assumptions C68_not_a_number.

Theorem C68_infinity_refuted : exists buf sets p, property_sets buf sets /\ none_of is_name sets /\ none_of is_wide sets /\
  ParseBytes linux64 buf = Ok [p] /\ ParseBytes windows buf = Ok [p] /\ forall pl j, ~ json_value (ToJson pl p) j.
Proof. exact C68_special_refuted. Qed.
Print Assumptions C68_infinity_refuted.

Theorem C68_negative_number_refuted : exists buf sets p, property_sets buf sets /\
  map (fun ge => e_value (snd ge)) (all_entries sets) = [SI2 (-1)] /\ ParseBytes linux64 buf = Ok [p] /\
  ToJson linux64 p = B "{""Property"":""Unknown Property Identifier (2)"",""Type"":""VT_I2"",""Value"":18446744073709551615}".
Proof. exact C68_negative_refuted. Qed.
Print Assumptions C68_negative_number_refuted.

Theorem C68_date_refuted : exists p, p_fmt p = FMTID_UserDefined /\ p_type p = 64 /\ p_value p = VInt 132223284000000000 /\
  ToJson linux64 p = B "{""Property"":""Unknown Property Identifier (10)"",""Type"":""VT_FILETIME"",""Value"":""3672869:00:00""}".
Proof. exact C68_duration_refuted. Qed.
Print Assumptions C68_date_refuted.

Example C68_example : map (ToJson linux64) [mkProp 100 FMTID_SummaryInformation 5 (VFloat (Num false 6755399441055744 (-52)));
                                     mkProp 12 FMTID_SummaryInformation 64 (VInt 132223284000000000)] =
  [B "{""Property"":""Unknown Property Identifier (100)"",""Type"":""VT_R8"",""Value"":1.5}";
   B "{""Property"":""Creation Time"",""Type"":""VT_FILETIME"",""Value"":""2020-01-01 05:00:00""}"].
Proof. exact C68_ex. Qed.

Example C68_example_digits : value_ok (VFloat (Num false 7378697629483821 (-66))) /\
  double_text linux64 (Num false 7378697629483821 (-66)) = B "0.0001" /\
  double_text windows (Num true 4503599627370497 (-80)) = B "-3.72529e-09".
Proof. exact C68_ex_digits. Qed.

(** ** C69: XML *)
Theorem C69_xml_document : forall pl p, value_ok (p_value p) -> exists x,
  xml_document (ToXML pl p) (property_element (PropertyIdentifierToString (p_fmt p) (p_pid p)) (PropertyTypeToString (p_type p)) x) /\
  xml_shows (p_value p) x.
Proof. exact C69_document. Qed.
Print Assumptions C69_xml_document.

Theorem C69_date_refuted : exists p, p_type p = 64 /\
  ToXML linux64 p = B "<PropertyItem><Property>Creation Time</Property><Type>VT_FILETIME</Type><Value>132223284000000000</Value></PropertyItem>" /\
  ToJson linux64 p = B "{""Property"":""Creation Time"",""Type"":""VT_FILETIME"",""Value"":""2020-01-01 05:00:00""}".
Proof. exact C69_time_refuted. Qed.
Print Assumptions C69_date_refuted.

Example C69_example : ToXML linux64 (mkProp 2 FMTID_SummaryInformation 30 (VString (B "a&b"))) =
  B "<PropertyItem><Property>Title</Property><Type>VT_LPSTR</Type><Value>a&#38;b</Value></PropertyItem>".
Proof. exact C69_ex. Qed.

(** ** C70: names *)
Theorem C70_type_names : forall t, (forall s, type_named t s -> PropertyTypeToString t = s) /\
  ((forall s, ~ type_named t s) -> PropertyTypeToString t = B "Unknown Property Type (" ++ dec t ++ B ")").
Proof. exact C70_types. Qed.
Print Assumptions C70_type_names.

Theorem C70_identifiers_distinct : forall f a b, PropertyIdentifierToString f a = PropertyIdentifierToString f b -> a = b.
Proof. exact C70_identifiers. Qed.
Print Assumptions C70_identifiers_distinct.

Theorem C70_property_names : forall pid s, (In (pid, s) summary_properties -> PropertyIdentifierToString FMTID_SummaryInformation pid = s) /\
  (In (pid, s) document_properties -> PropertyIdentifierToString FMTID_DocSummaryInformation pid = s).
Proof. exact C70_properties. Qed.
Print Assumptions C70_property_names.

Theorem C70_reserved_identifiers_refuted : PropertyIdentifierToString FMTID_DocSummaryInformation 2147483648 = B "Locale" /\
  PropertyIdentifierToString FMTID_SummaryInformation 2147483648 = B "Unknown Property Identifier (2147483648)" /\
  PropertyIdentifierToString FMTID_SummaryInformation 1 = B "CodePage" /\
  PropertyIdentifierToString FMTID_UserDefined 1 = B "Unknown Property Identifier (1)".
Proof. exact C70_reserved_refuted. Qed.
Print Assumptions C70_reserved_identifiers_refuted.

Example C70_example : type_named 4126 (B "VT_VECTOR|VT_LPSTR") /\ (forall s, ~ type_named 9 s).
Proof. exact C70_ex. Qed.
