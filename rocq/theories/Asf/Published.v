(** The GUIDs of the Advanced Systems Format, written down from memory of the published specification (chapter 10) after
    reading the code, without a copy of the specification at hand.  It shares no definition with the model, but it is not an
    independent source.  A GUID is given by its five groups as they are written. *)
From Coq Require Import List NArith Strings.String.
From Verif Require Import Lib.Bytes Lib.Text.
Import ListNotations.
Local Open Scope N_scope.
Local Open Scope string_scope.

Record guid := G { g1 : N; g2 : N; g3 : N; g4 : N; g5 : N }.
(** How a GUID is stored: the first three groups with the lowest byte first, the others as written *)
Definition stored_guid (g : guid) : bytes :=
  (to_le 4 (g1 g) ++ to_le 2 (g2 g) ++ to_le 2 (g3 g) ++ rev (to_le 2 (g4 g)) ++ rev (to_le 6 (g5 g)))%list.
Definition published_guids : list (string * guid) := [
  (* 10.1: top-level objects *)
  ("ASF_Header_Object", G 0x75B22630 0x668E 0x11CF 0xA6D9 0x00AA0062CE6C);
  ("ASF_Data_Object", G 0x75B22636 0x668E 0x11CF 0xA6D9 0x00AA0062CE6C);
  ("ASF_Simple_Index_Object", G 0x33000890 0xE5B1 0x11CF 0x89F4 0x00A0C90349CB);
  ("ASF_Index_Object", G 0xD6E229D3 0x35DA 0x11D1 0x9034 0x00A0C90349BE);
  ("ASF_Media_Object_Index_Object", G 0xFEB103F8 0x12AD 0x4C64 0x840F 0x2A1D2F7AD48C);
  ("ASF_Timecode_Index_Object", G 0x3CB73FD0 0x0C4A 0x4803 0x953D 0xEDF7B6228F0C);
  (* 10.2: header objects *)
  ("ASF_File_Properties_Object", G 0x8CABDCA1 0xA947 0x11CF 0x8EE4 0x00C00C205365);
  ("ASF_Stream_Properties_Object", G 0xB7DC0791 0xA9B7 0x11CF 0x8EE6 0x00C00C205365);
  ("ASF_Header_Extension_Object", G 0x5FBF03B5 0xA92E 0x11CF 0x8EE3 0x00C00C205365);
  ("ASF_Codec_List_Object", G 0x86D15240 0x311D 0x11D0 0xA3A4 0x00A0C90348F6);
  ("ASF_Script_Command_Object", G 0x1EFB1A30 0x0B62 0x11D0 0xA39B 0x00A0C90348F6);
  ("ASF_Marker_Object", G 0xF487CD01 0xA951 0x11CF 0x8EE6 0x00C00C205365);
  ("ASF_Bitrate_Mutual_Exclusion_Object", G 0xD6E229DC 0x35DA 0x11D1 0x9034 0x00A0C90349BE);
  ("ASF_Error_Correction_Object", G 0x75B22635 0x668E 0x11CF 0xA6D9 0x00AA0062CE6C);
  ("ASF_Content_Description_Object", G 0x75B22633 0x668E 0x11CF 0xA6D9 0x00AA0062CE6C);
  ("ASF_Extended_Content_Description_Object", G 0xD2D0A440 0xE307 0x11D2 0x97F0 0x00A0C95EA850);
  ("ASF_Content_Branding_Object", G 0x2211B3FA 0xBD23 0x11D2 0xB4B7 0x00A0C955FC6E);
  ("ASF_Stream_Bitrate_Properties_Object", G 0x7BF875CE 0x468D 0x11D1 0x8D82 0x006097C9A2B2);
  ("ASF_Content_Encryption_Object", G 0x2211B3FB 0xBD23 0x11D2 0xB4B7 0x00A0C955FC6E);
  ("ASF_Extended_Content_Encryption_Object", G 0x298AE614 0x2622 0x4C17 0xB935 0xDAE07EE9289C);
  ("ASF_Digital_Signature_Object", G 0x2211B3FC 0xBD23 0x11D2 0xB4B7 0x00A0C955FC6E);
  ("ASF_Padding_Object", G 0x1806D474 0xCADF 0x4509 0xA4BA 0x9AABCB96AAE8);
  (* 10.3: header extension objects *)
  ("ASF_Extended_Stream_Properties_Object", G 0x14E6A5CB 0xC672 0x4332 0x8399 0xA96952065B5A);
  ("ASF_Advanced_Mutual_Exclusion_Object", G 0xA08649CF 0x4775 0x4670 0x8A16 0x6E35357566CD);
  ("ASF_Group_Mutual_Exclusion_Object", G 0xD1465A40 0x5A79 0x4338 0xB71B 0xE36B8FD6C249);
  ("ASF_Stream_Prioritization_Object", G 0xD4FED15B 0x88D3 0x454F 0x81F0 0xED5C45999E24);
  ("ASF_Bandwidth_Sharing_Object", G 0xA69609E6 0x517B 0x11D2 0xB6AF 0x00C04FD908E9);
  ("ASF_Language_List_Object", G 0x7C4346A9 0xEFE0 0x4BFC 0xB229 0x393EDE415C85);
  ("ASF_Metadata_Object", G 0xC5F8CBEA 0x5BAF 0x4877 0x8467 0xAA8C44FA4CCA);
  ("ASF_Metadata_Library_Object", G 0x44231C94 0x9498 0x49D1 0xA141 0x1D134E457054);
  ("ASF_Index_Parameters_Object", G 0xD6E229DF 0x35DA 0x11D1 0x9034 0x00A0C90349BE);
  ("ASF_Media_Object_Index_Parameters_Object", G 0x6B203BAD 0x3F11 0x48E4 0xACA8 0xD7613DE2CFA7);
  ("ASF_Timecode_Index_Parameters_Object", G 0xF55E496D 0x9797 0x4B5D 0x8C8B 0x604DFE9BFB24);
  ("ASF_Compatibility_Object", G 0x26F18B5D 0x4584 0x47EC 0x9F5F 0x0E651F0452C9);
  ("ASF_Advanced_Content_Encryption_Object", G 0x43058533 0x6981 0x49E6 0x9B74 0xAD12CB86D58C);
  (* 10.4: types of streams *)
  ("ASF_Audio_Media", G 0xF8699E40 0x5B4D 0x11CF 0xA8FD 0x00805F5C442B);
  ("ASF_Video_Media", G 0xBC19EFC0 0x5B4D 0x11CF 0xA8FD 0x00805F5C442B);
  ("ASF_Command_Media", G 0x59DACFC0 0x59E6 0x11D0 0xA3AC 0x00A0C90348F6);
  ("ASF_JFIF_Media", G 0xB61BE100 0x5B4E 0x11CF 0xA8FD 0x00805F5C442B);
  ("ASF_Degradable_JPEG_Media", G 0x35907DE0 0xE415 0x11CF 0xA917 0x00805F5C442B);
  ("ASF_File_Transfer_Media", G 0x91BD222C 0xF21C 0x497A 0x8B6D 0x5AA86BFC0185);
  ("ASF_Binary_Media", G 0x3AFB65E2 0x47EF 0x40F2 0xAC2C 0x70A90D71D343);
  ("ASF_Web_Stream_Media_Subtype", G 0x776257D4 0xC627 0x41CB 0x8F81 0x7AC7FF1C40CC);
  ("ASF_Web_Stream_Format", G 0xDA1E6B13 0x8359 0x4050 0xB398 0x388E965BF00C);
  (* 10.5 to 10.11: error correction, reserved GUIDs, encryption, exclusion, sharing *)
  ("ASF_No_Error_Correction", G 0x20FB5700 0x5B55 0x11CF 0xA8FD 0x00805F5C442B);
  ("ASF_Audio_Spread", G 0xBFC3CD50 0x618F 0x11CF 0x8BB2 0x00AA00B4E220);
  ("ASF_Reserved_1", G 0xABD3D211 0xA9BA 0x11CF 0x8EE6 0x00C00C205365);
  ("ASF_Content_Encryption_System_Windows_Media_DRM_Network_Devices", G 0x7A079BB6 0xDAA4 0x4E12 0xA5CA 0x91D38DC11A8D);
  ("ASF_Reserved_2", G 0x86D15241 0x311D 0x11D0 0xA3A4 0x00A0C90348F6);
  ("ASF_Reserved_3", G 0x4B1ACBE3 0x100B 0x11D0 0xA39B 0x00A0C90348F6);
  ("ASF_Reserved_4", G 0x4CFEDB20 0x75F6 0x11CF 0x9C0F 0x00A0C90349CB);
  ("ASF_Mutex_Language", G 0xD6E22A00 0x35DA 0x11D1 0x9034 0x00A0C90349BE);
  ("ASF_Mutex_Bitrate", G 0xD6E22A01 0x35DA 0x11D1 0x9034 0x00A0C90349BE);
  ("ASF_Mutex_Unknown", G 0xD6E22A02 0x35DA 0x11D1 0x9034 0x00A0C90349BE);
  ("ASF_Bandwidth_Sharing_Exclusive", G 0xAF6060AA 0x5197 0x11D2 0xB6AF 0x00C04FD908E9);
  ("ASF_Bandwidth_Sharing_Partial", G 0xAF6060AB 0x5197 0x11D2 0xB6AF 0x00C04FD908E9);
  (* 10.13: extensions of payloads *)
  ("ASF_Payload_Extension_System_Timecode", G 0x399595EC 0x8667 0x4E2D 0x8FDB 0x98814CE76C1E);
  ("ASF_Payload_Extension_System_File_Name", G 0xE165EC0E 0x19ED 0x45D7 0xB4A7 0x25CBD1E28E9B);
  ("ASF_Payload_Extension_System_Content_Type", G 0xD590DC20 0x07BC 0x436C 0x9CF7 0xF3BBFBF1A4DC);
  ("ASF_Payload_Extension_System_Pixel_Aspect_Ratio", G 0x1B1EE554 0xF9EA 0x4BC8 0x821A 0x376B74E4C4B8);
  ("ASF_Payload_Extension_System_Sample_Duration", G 0xC6BD9450 0x867F 0x4907 0x83A3 0xC77921B733AD);
  ("ASF_Payload_Extension_System_Encryption_Sample_ID", G 0x6698B84E 0x0AFA 0x4330 0xAEB2 0x1C0A98D7A44D)].
