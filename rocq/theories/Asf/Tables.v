(** The GUID table of /repo/fileid/media/asf/asf.hpp, transcribed row by row.  An [ASFType]
    is represented by the text [ASFTypeToString] prints for it. *)
From Coq Require Import List NArith Strings.String.
From Verif Require Import Lib.Bytes.
Import ListNotations.

(** asf.hpp:149-215 (ASFTypeFromGuid, in the order tested), the arrays of 15-76 and the names
    of 218-282 *)
Definition guid_types : list (bytes * bytes) := [
  ([x30; x26; xb2; x75; x8e; x66; xcf; x11; xa6; xd9; x00; xaa; x00; x62; xce; x6c], B "ASF_Header_Object");
  ([x36; x26; xb2; x75; x8e; x66; xcf; x11; xa6; xd9; x00; xaa; x00; x62; xce; x6c], B "ASF_Data_Object");
  ([x90; x08; x00; x33; xb1; xe5; xcf; x11; x89; xf4; x00; xa0; xc9; x03; x49; xcb], B "ASF_Simple_Index_Object");
  ([xd3; x29; xe2; xd6; xda; x35; xd1; x11; x90; x34; x00; xa0; xc9; x03; x49; xbe], B "ASF_Index_Object");
  ([xf8; x03; xb1; xfe; xad; x12; x64; x4c; x84; x0f; x2a; x1d; x2f; x7a; xd4; x8c], B "ASF_Media_Object_Index_Object");
  ([xd0; x3f; xb7; x3c; x4a; x0c; x03; x48; x95; x3d; xed; xf7; xb6; x22; x8f; x0c], B "ASF_Timecode_Index_Object");
  ([xa1; xdc; xab; x8c; x47; xa9; xcf; x11; x8e; xe4; x00; xc0; x0c; x20; x53; x65], B "ASF_File_Properties_Object");
  ([xb5; x03; xbf; x5f; x2e; xa9; xcf; x11; x8e; xe3; x00; xc0; x0c; x20; x53; x65], B "ASF_Header_Extension_Object");
  ([x91; x07; xdc; xb7; xb7; xa9; xcf; x11; x8e; xe6; x00; xc0; x0c; x20; x53; x65], B "ASF_Stream_Properties_Object");
  ([x40; x52; xd1; x86; x1d; x31; xd0; x11; xa3; xa4; x00; xa0; xc9; x03; x48; xf6], B "ASF_Codec_List_Object");
  ([x30; x1a; xfb; x1e; x62; x0b; xd0; x11; xa3; x9b; x00; xa0; xc9; x03; x48; xf6], B "ASF_Script_Command_Object");
  ([x01; xcd; x87; xf4; x51; xa9; xcf; x11; x8e; xe6; x00; xc0; x0c; x20; x53; x65], B "ASF_Marker_Object");
  ([xdc; x29; xe2; xd6; xda; x35; xd1; x11; x90; x34; x00; xa0; xc9; x03; x49; xbe], B "ASF_Bitrate_Mutual_Exclusion_Object");
  ([x35; x26; xb2; x75; x8e; x66; xcf; x11; xa6; xd9; x00; xaa; x00; x62; xce; x6c], B "ASF_Error_Correction_Object");
  ([x33; x26; xb2; x75; x8e; x66; xcf; x11; xa6; xd9; x00; xaa; x00; x62; xce; x6c], B "ASF_Content_Description_Object");
  ([x40; xa4; xd0; xd2; x07; xe3; xd2; x11; x97; xf0; x00; xa0; xc9; x5e; xa8; x50], B "ASF_Extended_Content_Description_Object");
  ([xfa; xb3; x11; x22; x23; xbd; xd2; x11; xb4; xb7; x00; xa0; xc9; x55; xfc; x6e], B "ASF_Content_Branding_Object");
  ([xce; x75; xf8; x7b; x8d; x46; xd1; x11; x8d; x82; x00; x60; x97; xc9; xa2; xb2], B "ASF_Stream_Bitrate_Properties_Object");
  ([xfb; xb3; x11; x22; x23; xbd; xd2; x11; xb4; xb7; x00; xa0; xc9; x55; xfc; x6e], B "ASF_Content_Encryption_Object");
  ([x14; xe6; x8a; x29; x22; x26; x17; x4c; xb9; x35; xda; xe0; x7e; xe9; x28; x9c], B "ASF_Extended_Content_Encryption_Object");
  ([xfc; xb3; x11; x22; x23; xbd; xd2; x11; xb4; xb7; x00; xa0; xc9; x55; xfc; x6e], B "ASF_Digital_Signature_Object");
  ([x74; xd4; x06; x18; xdf; xca; x09; x45; xa4; xba; x9a; xab; xcb; x96; xaa; xe8], B "ASF_Padding_Object");
  ([x33; x85; x05; x43; x81; x69; xe6; x49; x9b; x74; xad; x12; xcb; x86; xd5; x8c], B "ASF_Advanced_Content_Encryption_Object");
  ([xcf; x49; x86; xa0; x75; x47; x70; x46; x8a; x16; x6e; x35; x35; x75; x66; xcd], B "ASF_Advanced_Mutual_Exclusion_Object");
  ([x40; x9e; x69; xf8; x4d; x5b; xcf; x11; xa8; xfd; x00; x80; x5f; x5c; x44; x2b], B "ASF_Audio_Media");
  ([x50; xcd; xc3; xbf; x8f; x61; xcf; x11; x8b; xb2; x00; xaa; x00; xb4; xe2; x20], B "ASF_Audio_Spread");
  ([xaa; x60; x60; xaf; x97; x51; xd2; x11; xb6; xaf; x00; xc0; x4f; xd9; x08; xe9], B "ASF_Bandwidth_Sharing_Exclusive");
  ([xe6; x09; x96; xa6; x7b; x51; xd2; x11; xb6; xaf; x00; xc0; x4f; xd9; x08; xe9], B "ASF_Bandwidth_Sharing_Object");
  ([xab; x60; x60; xaf; x97; x51; xd2; x11; xb6; xaf; x00; xc0; x4f; xd9; x08; xe9], B "ASF_Bandwidth_Sharing_Partial");
  ([xe2; x65; xfb; x3a; xef; x47; xf2; x40; xac; x2c; x70; xa9; x0d; x71; xd3; x43], B "ASF_Binary_Media");
  ([xc0; xcf; xda; x59; xe6; x59; xd0; x11; xa3; xac; x00; xa0; xc9; x03; x48; xf6], B "ASF_Command_Media");
  ([x30; x26; xb2; x75; x8e; x66; xcf; x11; xa6; xd9; x00; xaa; x00; x62; xce; x6c], B "ASF_Compatibility_Object");
  ([xb6; x9b; x07; x7a; xa4; xda; x12; x4e; xa5; xca; x91; xd3; x8d; xc1; x1a; x8d], B "ASF_Content_Encryption_System_Windows_Media_DRM_Network_Devices");
  ([xe0; x7d; x90; x35; x15; xe4; xcf; x11; xa9; x17; x00; x80; x5f; x5c; x44; x2b], B "ASF_Degradable_JPEG_Media");
  ([xcb; xa5; xe6; x14; x72; xc6; x32; x43; x83; x99; xa9; x69; x52; x06; x5b; x5a], B "ASF_Extended_Stream_Properties_Object");
  ([x2c; x22; xbd; x91; x1c; xf2; x7a; x49; x8b; x6d; x5a; xa8; x6b; xfc; x01; x85], B "ASF_File_Transfer_Media");
  ([x40; x5a; x46; xd1; x79; x5a; x38; x43; xb7; x1b; xe3; x6b; x8f; xd6; xc2; x49], B "ASF_Group_Mutual_Exclusion_Object");
  ([xdf; x29; xe2; xd6; xda; x35; xd1; x11; x90; x34; x00; xa0; xc9; x03; x49; xbe], B "ASF_Index_Parameters_Object");
  ([x00; xe1; x1b; xb6; x4e; x5b; xcf; x11; xa8; xfd; x00; x80; x5f; x5c; x44; x2b], B "ASF_JFIF_Media");
  ([xa9; x46; x43; x7c; xe0; xef; xfc; x4b; xb2; x29; x39; x3e; xde; x41; x5c; x85], B "ASF_Language_List_Object");
  ([xad; x3b; x20; x6b; x11; x3f; xe4; x48; xac; xa8; xd7; x61; x3d; xe2; xcf; xa7], B "ASF_Media_Object_Index_Parameters_Object");
  ([x94; x1c; x23; x44; x98; x94; xd1; x49; xa1; x41; x1d; x13; x4e; x45; x70; x54], B "ASF_Metadata_Library_Object");
  ([xea; xcb; xf8; xc5; xaf; x5b; x77; x48; x84; x67; xaa; x8c; x44; xfa; x4c; xca], B "ASF_Metadata_Object");
  ([x01; x2a; xe2; xd6; xda; x35; xd1; x11; x90; x34; x00; xa0; xc9; x03; x49; xbe], B "ASF_Mutex_Bitrate");
  ([x00; x2a; xe2; xd6; xda; x35; xd1; x11; x90; x34; x00; xa0; xc9; x03; x49; xbe], B "ASF_Mutex_Language");
  ([x02; x2a; xe2; xd6; xda; x35; xd1; x11; x90; x34; x00; xa0; xc9; x03; x49; xbe], B "ASF_Mutex_Unknown");
  ([x00; x57; xfb; x20; x55; x5b; xcf; x11; xa8; xfd; x00; x80; x5f; x5c; x44; x2b], B "ASF_No_Error_Correction");
  ([x20; xdc; x90; xd5; xbc; x07; x6c; x43; x9c; xf7; xf3; xbb; xfb; xf1; xa4; xdc], B "ASF_Payload_Extension_System_Content_Type");
  ([x4e; xb8; x98; x66; xfa; x0a; x30; x43; xae; xb2; x1c; x0a; x98; xd7; xa4; x4d], B "ASF_Payload_Extension_System_Encryption_Sample_ID");
  ([x0e; xec; x65; xe1; xed; x19; xd7; x45; xb4; xa7; x25; xcb; xd1; xe2; x8e; x9b], B "ASF_Payload_Extension_System_File_Name");
  ([x54; xe5; x1e; x1b; xea; xf9; xc8; x4b; x82; x1a; x37; x6b; x74; xe4; xc4; xb8], B "ASF_Payload_Extension_System_Pixel_Aspect_Ratio");
  ([x50; x94; xbd; xc6; x7f; x86; x07; x49; x83; xa3; xc7; x79; x21; xb7; x33; xad], B "ASF_Payload_Extension_System_Sample_Duration");
  ([xec; x95; x95; x39; x67; x86; x2d; x4e; x8f; xdb; x98; x81; x4c; xe7; x6c; x1e], B "ASF_Payload_Extension_System_Timecode");
  ([x11; xd2; xd3; xab; xba; xa9; xcf; x11; x8e; xe6; x00; xc0; x0c; x20; x53; x65], B "ASF_Reserved_1");
  ([x41; x52; xd1; x86; x1d; x31; xd0; x11; xa3; xa4; x00; xa0; xc9; x03; x48; xf6], B "ASF_Reserved_2");
  ([xe3; xcb; x1a; x4b; x0b; x10; xd0; x11; xa3; x9b; x00; xa0; xc9; x03; x48; xf6], B "ASF_Reserved_3");
  ([x20; xdb; xfe; x4c; xf6; x75; xcf; x11; x9c; x0f; x00; xa0; xc9; x03; x49; xcb], B "ASF_Reserved_4");
  ([x5b; xd1; xfe; xd4; xd3; x88; x4f; x45; x81; xf0; xed; x5c; x45; x99; x9e; x24], B "ASF_Stream_Prioritization_Object");
  ([x6d; x49; x5e; xf5; x97; x97; x5d; x4b; x8c; x8b; x60; x4d; xfe; x9b; xfb; x24], B "ASF_Timecode_Index_Parameters_Object");
  ([xc0; xef; x19; xbc; x4d; x5b; xcf; x11; xa8; xfd; x00; x80; x5f; x5c; x44; x2b], B "ASF_Video_Media");
  ([x13; x6b; x1e; xda; x59; x83; x50; x40; xb3; x98; x38; x8e; x96; x5b; xf0; x0c], B "ASF_Web_Stream_Format");
  ([xd4; x57; x62; x77; x27; xc6; xcb; x41; x8f; x81; x7a; xc7; xff; x1c; x40; xcc], B "ASF_Web_Stream_Media_Subtype")].
