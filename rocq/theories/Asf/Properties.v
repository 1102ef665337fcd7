(** Properties C40-C50: ASF files and wide text.  Statements only; the vocabulary is in
    [Common/Spec.v], [Common/Fields.v], [Common/Utf8.v], [Magic/Spec.v], [Asf/Spec.v] and
    [Asf/Statements.v]. *)
From Coq Require Import List NArith ZArith Bool Strings.String.
From Verif Require Import Lib.Res Lib.Bytes Lib.Text Common.Model Common.Spec Common.Fields Common.Utf8
     Magic.Model Magic.Spec Magic.DocProofs Magic.DocBase Asf.Tables Asf.Model Asf.Spec Asf.Statements Asf.Proofs
     Asf.PropertyLemmas.
Import ListNotations.
Local Open Scope N_scope.

(** ** C40: the objects of an ASF header, in order, and their number *)
Theorem C40_objects_windows : forall number r1 r2 objs rest, header_size objs <= 65536 -> number < 2 ^ 32 -> Forall opaque objs ->
  asf_answer windows (asf_file number r1 r2 objs rest) =
  Ok [asf_result asf_base (AHeader (header_size objs) number (b2n r1) (b2n r2) :: map reported (takeN number objs))].
Proof. exact C40_windows_lemma. Qed.
Print Assumptions C40_objects_windows.

Theorem C40_objects_linux : forall number r1 r2 o objs rest, header_size (o :: objs) <= 65536 -> number < 2 ^ 32 ->
  Forall opaque (o :: objs) -> r1 <> x00 \/ r2 <> x00 ->
  asf_answer linux64 (asf_file number r1 r2 (o :: objs) rest) =
  Ok [asf_result asf_base
        (AHeader (header_size (o :: objs)) (number + 2 ^ 32 * le (r1 :: r2 :: takeN 2 (fst o))) (b2n r1) (b2n r2)
         :: map reported (o :: objs))].
Proof. exact C40_linux_lemma. Qed.
Print Assumptions C40_objects_linux.

Theorem C40_no_object_linux : forall number r1 r2 rest, asf_answer linux64 (asf_file number r1 r2 [] rest) = Throw RangeError.
Proof. exact C40_linux_empty. Qed.
Print Assumptions C40_no_object_linux.

Theorem C40_number_refuted : exists number r1 r2 objs rest number' cs,
  Forall opaque objs /\ lenN objs = number /\
  asf_answer linux64 (asf_file number r1 r2 objs rest) =
    Ok [asf_result asf_base (AHeader (header_size objs) number' (b2n r1) (b2n r2) :: cs)] /\ number' <> number.
Proof. exact C40_refuted. Qed.
Print Assumptions C40_number_refuted.

Example C40_example : Forall opaque [padding; padding] /\ header_size [padding; padding] = 84.
Proof. exact C40_ex. Qed.

(** ** C41: object sizes that do not fit *)
Theorem C41_size_below_24 : forall number r1 r2 objs (g d : bytes) v rest, let body := stored_all objs ++ g ++ to_le 8 v ++ d in
  30 + lenN body <= 65536 -> number < 2 ^ 32 -> Forall opaque objs -> lenN objs < number -> lenN g = 16 -> v < 24 ->
  asf_answer windows (asf_bytes number r1 r2 body rest) = Throw LengthError.
Proof. exact C41_small. Qed.
Print Assumptions C41_size_below_24.

Theorem C41_size_beyond_data : forall number r1 r2 objs (g d : bytes) v rest, let body := stored_all objs ++ g ++ to_le 8 v ++ d in
  30 + lenN body <= 65536 -> number < 2 ^ 32 -> Forall opaque objs -> lenN objs < number -> lenN g = 16 ->
  lenN (takeN 65536 (asf_bytes number r1 r2 body rest)) < 30 + lenN (stored_all objs) + v < 2 ^ 64 ->
  asf_answer windows (asf_bytes number r1 r2 body rest) =
  Ok [asf_result asf_base (AHeader (30 + lenN body) number (b2n r1) (b2n r2) :: map reported objs)].
Proof. exact C41_large. Qed.
Print Assumptions C41_size_beyond_data.

Theorem C41_every_file_answered_refuted : exists content, occurs_at header_guid content 0 /\ asf_answer windows content = Throw LengthError.
Proof. exact C41_refuted. Qed.
Print Assumptions C41_every_file_answered_refuted.

Example C41_example : lenN (stored_all [padding] ++ padding_guid ++ to_le 8 23 ++ []) = 51 /\ lenN [padding] < 2.
Proof. exact C41_ex. Qed.

(** ** C42: file properties *)
Theorem C42_fields_windows : forall (data id : bytes) fs cr dp pl se pre fl mi ma br, window data 0 16 id ->
  number_at data 16 8 fs -> number_at data 24 8 cr -> number_at data 32 8 dp -> number_at data 40 8 pl ->
  number_at data 48 8 se -> number_at data 56 8 pre ->
  number_at data 64 4 fl -> number_at data 68 4 mi -> number_at data 72 4 ma -> number_at data 76 4 br ->
  file_properties windows data = Ok (AFile data id fs cr dp pl se pre fl mi ma br).
Proof. exact C42_windows_lemma. Qed.
Print Assumptions C42_fields_windows.

Theorem C42_exact_outcome : forall p data, (lenN data < 16 -> file_properties p data = UB) /\
  (16 <= lenN data -> lenN data < 76 + sizeof_long p -> file_properties p data = Throw RangeError) /\
  (76 + sizeof_long p <= lenN data -> supported p ->
   exists id fs cr dp pl se pre fl mi ma br, file_properties p data = Ok (AFile data id fs cr dp pl se pre fl mi ma br)).
Proof. exact C42_short. Qed.
Print Assumptions C42_exact_outcome.

Theorem C42_standard_object_linux : forall number r1 r2 before (data : bytes) after rest, let objs := before ++ (file_properties_guid, data) :: after in
  header_size objs <= 65536 -> number < 2 ^ 32 -> Forall opaque before -> r1 <> x00 \/ r2 <> x00 ->
  16 <= lenN data -> lenN data < 84 ->
  asf_answer linux64 (asf_file number r1 r2 objs rest) = Throw RangeError.
Proof. exact C42_linux_lemma. Qed.
Print Assumptions C42_standard_object_linux.

Theorem C42_standard_object_refuted : exists content, asf_answer linux64 content = Throw RangeError /\
  exists number r1 r2, content = asf_file number r1 r2 [(file_properties_guid, sample_properties)] [] /\ lenN sample_properties = 80.
Proof. exact C42_refuted. Qed.
Print Assumptions C42_standard_object_refuted.

Example C42_example : header_size [(file_properties_guid, sample_properties)] = 134 /\
  number_at sample_properties 64 4 117901063.
Proof. exact C42_ex. Qed.

(** ** C43: parsing terminates *)
Theorem C43_bounded_or_forever : forall p buffer offset, lenN buffer < 2 ^ 32 ->
  (forall steps, Parse steps p buffer offset = Fuel) \/
  (exists r, r <> Fuel /\ forall steps, lenN buffer < N.of_nat steps -> Parse steps p buffer offset = r).
Proof. exact C43_bound. Qed.
Print Assumptions C43_bounded_or_forever.

Theorem C43_header_extension_windows : forall number r1 r2 before (guid : bytes) r objs (tail : bytes) after rest, let ext : bytes := stored_all objs ++ tail in
  let data : bytes := guid ++ to_le 2 r ++ to_le 4 (lenN ext) ++ ext in
  let all : list (bytes * bytes) := before ++ (extension_guid, data) :: after in
  header_size all <= 65536 -> number < 2 ^ 32 -> Forall opaque before -> Forall opaque after ->
  lenN all <= number -> lenN guid = 16 -> r < 65536 -> Forall opaque objs -> lenN tail < 24 ->
  asf_answer windows (asf_file number r1 r2 all rest) =
  match tail with
  | [] => Ok [asf_result asf_base
               (AHeader (header_size all) number (b2n r1) (b2n r2) :: map reported before ++
                AExt data (ASFTypeFromGuid guid) r (lenN ext) ext
                     (map reported objs) :: map reported after)]
  | _ => Fuel
  end.
Proof. exact C43_extension. Qed.
Print Assumptions C43_header_extension_windows.

Theorem C43_header_extension_linux : forall (guid : bytes) r number r1 r2 before after rest, let data : bytes := guid ++ to_le 2 r ++ to_le 4 0 in
  let objs : list (bytes * bytes) := before ++ (extension_guid, data) :: after in
  header_size objs <= 65536 -> number < 2 ^ 32 -> Forall opaque before -> r1 <> x00 \/ r2 <> x00 ->
  lenN guid = 16 -> r < 65536 ->
  asf_answer linux64 (asf_file number r1 r2 objs rest) = Throw RangeError.
Proof. exact C43_linux. Qed.
Print Assumptions C43_header_extension_linux.

Theorem C43_termination_refuted : exists content, forall steps, exists r, Parse steps windows content 30 = r /\ r = Fuel /\
  asf_answer windows content = Fuel.
Proof. exact C43_refuted. Qed.
Print Assumptions C43_termination_refuted.

Example C43_example : Forall opaque [padding] /\ lenN (clock_guid ++ to_le 2 6 ++ to_le 4 27 ++ stored padding) = 49.
Proof. exact C43_ex. Qed.

(** ** C44: codec lists and the kind of file *)
Theorem C44_codecs_windows : forall number r1 r2 before after (reserved : bytes) l rest, let objs := before ++ (codec_guid, codec_data reserved l) :: after in
  header_size objs <= 65536 -> number < 2 ^ 32 -> Forall opaque before -> Forall opaque after ->
  lenN objs <= number -> lenN reserved = 16 -> Forall codec_ok l ->
  exists es e,
    asf_answer windows (asf_file number r1 r2 objs rest) =
    Ok [asf_result e
          (AHeader (header_size objs) number (b2n r1) (b2n r2) ::
           map reported before ++
           ACodecs (codec_data reserved l) (ASFTypeFromGuid reserved) (lenN l) es ::
           map reported after)] /\
    Forall2 entry_shows l es /\ kind_of l e.
Proof. exact C44_windows_lemma. Qed.
Print Assumptions C44_codecs_windows.

Theorem C44_codecs_linux : forall number r1 r2 before after (reserved : bytes) c c1 c2 name l rest, let objs := before ++ (codec_guid, codec_data reserved (c :: l)) :: after in
  header_size objs <= 65536 -> number < 2 ^ 32 -> Forall opaque before -> r1 <> x00 \/ r2 <> x00 ->
  lenN reserved = 16 -> codec_ok c -> k_name c = c1 :: c2 :: name -> 17 <= c2 ->
  asf_answer linux64 (asf_file number r1 r2 objs rest) = Throw RangeError \/
  asf_answer linux64 (asf_file number r1 r2 objs rest) = UB.
Proof. exact C44_linux_lemma. Qed.
Print Assumptions C44_codecs_linux.

Theorem C44_single_video_refuted : exists content l,
  content = asf_file 1 x01 x02 [(codec_guid, codec_data clock_guid l)] [] /\ Forall codec_ok l /\
  Exists (begins (B "Windows Media Video")) l /\
  exists r, asf_answer windows content = Ok [r] /\ r_info r = asf_base.
Proof. exact C44_refuted. Qed.
Print Assumptions C44_single_video_refuted.

Example C44_example : Forall codec_ok [audio; video] /\ kind_of [audio] wma_base /\ kind_of [audio; video] wmv_base.
Proof. exact C44_ex. Qed.

(** ** C45: JSON and XML documents for ASF files *)
Theorem C45_json_document : forall base headers, info_plain base = true -> headers <> [] -> forallb obj_plain headers = true ->
  json_value (asf_json base headers)
    (JObj (item_members base ++ [(map b2n (B "headers"), JArr (map obj_jval headers))])).
Proof. exact C45_json. Qed.
Print Assumptions C45_json_document.

Theorem C45_xml_document : forall base headers, info_plain base = true -> headers <> [] -> forallb obj_plain headers = true ->
  xml_document (asf_xml base headers)
    (XElem (B "item") (base_elements base ++ [XElem (B "headers") (map obj_xnode headers)])).
Proof. exact C45_xml. Qed.
Print Assumptions C45_xml_document.

Theorem C45_opaque_objects_plain : forall number size r1 r2 objs, forallb obj_plain (AHeader size number r1 r2 :: map reported objs) = true.
Proof. exact C45_opaque. Qed.
Print Assumptions C45_opaque_objects_plain.

Theorem C45_json_refuted : exists content r, asf_answer windows content = Ok [r] /\
  forall v, ~ json_value (eJson (r_out r)) v.
Proof. exact C45_json_refuted_lemma. Qed.
Print Assumptions C45_json_refuted.

Theorem C45_empty_list_refuted : exists content r, asf_answer windows content = Ok [r] /\
  content = asf_file 1 x01 x02 [(codec_guid, codec_data clock_guid [])] [] /\
  forall v, ~ json_value (eJson (r_out r)) v.
Proof. exact C45_empty_refuted_lemma. Qed.
Print Assumptions C45_empty_list_refuted.

Theorem C45_xml_refuted : exists content r, asf_answer windows content = Ok [r] /\
  forall v, ~ xml_document (eXml (r_out r)) v.
Proof. exact C45_xml_refuted_lemma. Qed.
Print Assumptions C45_xml_refuted.

Example C45_example : forallb obj_plain [AHeader 30 2 1 2; AContent [] (B "Title") (B "Author") [] [] [];
   ACodecs [] (B "Unknown") 1 [mkCodec 10 2 (B "Windows Media Audio 9") (B "64 kbps") [x61]]] = true.
Proof. exact C45_ex. Qed.

(** ** C46: content descriptions are read inside their data *)
Theorem C46_exact_outcome : forall data l1 l2 l3 l4 l5, lenN data < 2 ^ 32 ->
  number_at data 0 2 l1 -> number_at data 2 2 l2 -> number_at data 4 2 l3 -> number_at data 6 2 l4 -> number_at data 8 2 l5 ->
  if 10 + l1 + l2 + l3 + l4 + 2 * (l5 / 2) <=? lenN data
  then exists t a c d r, content_description windows data = Ok (AContent data t a c d r)
  else content_description windows data = UB.
Proof. exact C46_exact. Qed.
Print Assumptions C46_exact_outcome.

Theorem C46_short_object : forall data, lenN data < 10 ->
  content_description windows data = if N.odd (lenN data) then UB else Throw RangeError.
Proof. exact C46_short. Qed.
Print Assumptions C46_short_object.

Theorem C46_file_with_long_texts : forall number r1 r2 before (data : bytes) after rest l1 l2 l3 l4 l5, let objs := before ++ (content_guid, data) :: after in
  header_size objs <= 65536 -> number < 2 ^ 32 -> Forall opaque before -> lenN before < number ->
  number_at data 0 2 l1 -> number_at data 2 2 l2 -> number_at data 4 2 l3 -> number_at data 6 2 l4 -> number_at data 8 2 l5 ->
  lenN data < 10 + l1 + l2 + l3 + l4 + 2 * (l5 / 2) ->
  asf_answer windows (asf_file number r1 r2 objs rest) = UB.
Proof. exact C46_file. Qed.
Print Assumptions C46_file_with_long_texts.

Theorem C46_texts_windows : forall a b c d e, Forall (fun u => u < 65536 /\ scalar u) (a ++ b ++ c ++ d ++ e) ->
  2 * lenN a < 65536 -> 2 * lenN b < 65536 -> 2 * lenN c < 65536 -> 2 * lenN d < 65536 -> 2 * lenN e < 65536 ->
  exists a' b' c' d' e',
    content_description windows (content_texts a b c d e) = Ok (AContent (content_texts a b c d e) a' b' c' d' e') /\
    utf8 a' (shown a) /\ utf8 b' (shown b) /\ utf8 c' (shown c) /\ utf8 d' (shown d) /\ utf8 e' (shown e).
Proof. exact C46_texts. Qed.
Print Assumptions C46_texts_windows.

Theorem C46_inside_data_refuted : exists content, asf_answer windows content = UB.
Proof. exact C46_refuted. Qed.
Print Assumptions C46_inside_data_refuted.

Example C46_example : content_description windows (content_texts (ascii16 (B "Ode")) [233] [] [] []) =
  Ok (AContent (content_texts (ascii16 (B "Ode")) [233] [] [] []) (B "Ode") [xc3; xa9] [] [] []).
Proof. exact C46_ex. Qed.

(** ** C47: object labels *)
Theorem C47_exact_labels : forall F p guid data size o, lenN guid = 16 -> make_object F (Parse F p) p guid data size = Ok o ->
  obj_type o = if bytes_eqb guid content_guid then B "ASF_Header_Extension_Object" else ASFTypeFromGuid guid.
Proof. exact C47_labels. Qed.
Print Assumptions C47_exact_labels.

Theorem C47_table_rows : forall g n, In (g, n) guid_types ->
  ASFTypeFromGuid g = if bytes_eqb n (B "ASF_Compatibility_Object") then B "ASF_Header_Object" else n.
Proof. exact C47_rows. Qed.
Print Assumptions C47_table_rows.

Theorem C47_compatibility_never_named : forall g, ASFTypeFromGuid g <> B "ASF_Compatibility_Object".
Proof. exact C47_never. Qed.
Print Assumptions C47_compatibility_never_named.

Theorem C47_content_label_refuted : exists content o, asf_answer windows content =
    Ok [asf_result asf_base [AHeader 64 1 1 2; o]] /\
  content = asf_file 1 x01 x02 [(content_guid, repeat x00 10)] [] /\
  obj_type o = B "ASF_Header_Extension_Object" /\ ASFTypeFromGuid content_guid = B "ASF_Content_Description_Object".
Proof. exact C47_refuted. Qed.
Print Assumptions C47_content_label_refuted.

Theorem C47_compatibility_refuted : exists g, In (g, B "ASF_Compatibility_Object") guid_types /\
  ASFTypeFromGuid g = B "ASF_Header_Object".
Proof. exact C47_compatibility_refuted_lemma. Qed.
Print Assumptions C47_compatibility_refuted.

Example C47_example : make_object 3 (Parse 3 windows) windows padding_guid [x01] 25 = Ok (AUnknown (ASFTypeFromGuid padding_guid) [x01]) /\
  ASFTypeFromGuid padding_guid = B "ASF_Padding_Object".
Proof. exact C47_ex. Qed.

(** ** C48: wide text is converted to UTF-8 *)
Theorem C48_exact_conversion : forall l, convert l = Throw RangeError /\ ~ Forall (fun c => c < 1114112) l \/
  exists s, convert l = Ok s /\ Forall (fun c => c < 1114112) l /\
            forall m, utf8 s m <-> (m = l /\ Forall scalar l).
Proof. exact C48_exact. Qed.
Print Assumptions C48_exact_conversion.

Theorem C48_decoding_unique : forall s l l', utf8 s l -> utf8 s l' -> l = l'.
Proof. exact C48_fun. Qed.
Print Assumptions C48_decoding_unique.

Theorem C48_valid_utf8_refuted : exists s, convert (to_wchars windows [x3d; xd8; x00; xde]) = Ok s /\ forall l, ~ utf8 s l.
Proof. exact C48_refuted. Qed.
Print Assumptions C48_valid_utf8_refuted.

Example C48_example : convert [72; 233; 8364; 128512] = Ok [x48; xc3; xa9; xe2; x82; xac; xf0; x9f; x98; x80] /\
  Forall scalar [72; 233; 8364; 128512].
Proof. exact C48_ex. Qed.

(** ** C49: stream properties *)
Theorem C49_stream_windows : forall number r1 r2 before after rest (type correction : bytes) time flags reserved (own corr : bytes), let data : bytes := stream_data type correction time flags reserved own corr in
  let objs : list (bytes * bytes) := before ++ (stream_guid, data) :: after in
  header_size objs <= 65536 -> number < 2 ^ 32 -> Forall opaque before -> Forall opaque after -> lenN objs <= number ->
  lenN type = 16 -> lenN correction = 16 -> time < 2 ^ 64 -> flags < 2 ^ 16 -> reserved < 2 ^ 32 ->
  asf_answer windows (asf_file number r1 r2 objs rest) =
  Ok [asf_result asf_base
        (AHeader (header_size objs) number (b2n r1) (b2n r2) :: map reported before ++
         AStream data (ASFTypeFromGuid type) (ASFTypeFromGuid correction) time (lenN own) (lenN corr) flags reserved own corr
         :: map reported after)].
Proof. exact C49_windows_lemma. Qed.
Print Assumptions C49_stream_windows.

Theorem C49_exact_outcome : forall data (g1 g2 : bytes) time tlen elen flags reserved, lenN data < 2 ^ 32 ->
  window data 0 16 g1 -> window data 16 16 g2 -> number_at data 32 8 time -> number_at data 40 4 tlen ->
  number_at data 44 4 elen -> number_at data 48 2 flags -> number_at data 50 4 reserved ->
  stream_properties windows data =
  if 54 + tlen + elen <=? lenN data
  then Ok (AStream data (ASFTypeFromGuid g1) (ASFTypeFromGuid g2) time tlen elen flags reserved
             (takeN tlen (dropN 54 data)) (takeN elen (dropN (54 + tlen) data)))
  else UB.
Proof. exact C49_exact. Qed.
Print Assumptions C49_exact_outcome.

Theorem C49_stream_linux : forall number r1 r2 before after rest (type correction : bytes) time flags reserved (own corr : bytes), let data : bytes := stream_data type correction time flags reserved own corr in
  let objs : list (bytes * bytes) := before ++ (stream_guid, data) :: after in
  header_size objs <= 65536 -> number < 2 ^ 32 -> Forall opaque before -> r1 <> x00 \/ r2 <> x00 ->
  lenN type = 16 -> lenN correction = 16 -> time < 2 ^ 64 -> flags < 2 ^ 16 -> reserved < 2 ^ 32 ->
  corr <> [] -> 4 <= lenN own + lenN corr ->
  asf_answer linux64 (asf_file number r1 r2 objs rest) = UB.
Proof. exact C49_linux_lemma. Qed.
Print Assumptions C49_stream_linux.

Theorem C49_linux_refuted : exists content, content = asf_file 1 x01 x02 [(stream_guid, sample_stream)] [] /\
  asf_answer linux64 content = UB.
Proof. exact C49_refuted. Qed.
Print Assumptions C49_linux_refuted.

Theorem C49_inside_data_refuted : exists content, asf_answer windows content = UB.
Proof. exact C49_unsafe. Qed.
Print Assumptions C49_inside_data_refuted.

Example C49_example : header_size [(stream_guid, sample_stream)] = 113 /\
  stream_properties windows sample_stream =
  Ok (AStream sample_stream (ASFTypeFromGuid clock_guid) (ASFTypeFromGuid clock_guid) 7 4 1 1 0 [x01; x02; x03; x04] [x05]).
Proof. exact C49_ex. Qed.

(** ** C50: attributes of extended content descriptions *)
Theorem C50_attributes_windows : forall number r1 r2 before after rest (l : list attribute), let data : bytes := attributes_data l in
  let objs : list (bytes * bytes) := before ++ (ext_content_guid, data) :: after in
  header_size objs <= 65536 -> number < 2 ^ 32 -> Forall opaque before -> Forall opaque after -> lenN objs <= number ->
  Forall attribute_ok l ->
  exists es,
  asf_answer windows (asf_file number r1 r2 objs rest) =
  Ok [asf_result asf_base
        (AHeader (header_size objs) number (b2n r1) (b2n r2) :: map reported before ++
         AExtContent data (lenN l) es :: map reported after)] /\
  Forall2 (attribute_text reversed) l es.
Proof. exact C50_windows_lemma. Qed.
Print Assumptions C50_attributes_windows.

Theorem C50_attributes_without_dwords : forall (l : list attribute) es, Forall2 (attribute_text reversed) l es ->
  (forall n, ~ In (VDword n) (map snd l)) -> Forall2 (attribute_text (fun n => n)) l es.
Proof. exact C50_right. Qed.
Print Assumptions C50_attributes_without_dwords.

Theorem C50_reversal : forall n, n < 2 ^ 32 -> reversed (reversed n) = n.
Proof. exact C50_reversed. Qed.
Print Assumptions C50_reversal.

Theorem C50_dwords_refuted : exists l n, Forall attribute_ok l /\ In (VDword n) (map snd l) /\
  forall es, Forall2 (attribute_text reversed) l es -> ~ Forall2 (attribute_text (fun n => n)) l es.
Proof. exact C50_refuted. Qed.
Print Assumptions C50_dwords_refuted.

Example C50_example : extended_content windows (attributes_data sample_attributes) =
  Ok (AExtContent (attributes_data sample_attributes) 3
        [(B "WM/Year", B "1999"); (B "Rating", B "83886080"); (B "IsVBR", B "true")]).
Proof. exact C50_ex. Qed.
