(** Model of /repo/fileid/media/mp4/mp4.hpp, /repo/fileid/media/riff/riff.hpp,
    /repo/fileid/media/jpeg.hpp and /repo/fileid/document/dwg/autocad.hpp.  Definitions only. *)
From Coq Require Import List NArith ZArith Bool Strings.String.
From Verif Require Import Lib.Res Lib.Bytes Lib.Text Common.Model Magic.Model.
Import ListNotations.
Local Open Scope N_scope.

(** ** mp4.hpp *)

(** mp4.hpp:66-123: the brand names, in order *)
Definition brand_names : list (bytes * bytes) := [
  (B "3g2a", B "3GPP2");
  (B "3ge6", B "3GPP Release 6 extended-presentation Profile");
  (B "3gg6", B "3GPP Release 6 General Profile");
  (B "3gp4", B "3GPP Release 4");
  (B "3gp5", B "3GPP Release 5");
  (B "3gp6", B "3GPP Release 6 basic Profile");
  (B "3gr6", B "3GPP Release 6 progressive-download Profile");
  (B "3gs6", B "3GPP Release 6 streaming-server Profile");
  (B "ARRI", B "ARRI Digital Camera");
  (B "CAEP", B "Canon Digital Camera");
  (B "CDes", B "Convergent Designs");
  (B "LCAG", B "Leica digital camera");
  (B "M4A ", B "iTunes MPEG-4 audio");
  (B "M4B ", B "iTunes AudioBook protected");
  (B "M4P ", B "MPEG-4 protected audio");
  (B "M4V ", B "MPEG-4 protected audio+video");
  (B "MPPI", B "Photo Player Multimedia Application Format");
  (B "ROSS", B "Ross Video");
  (B "avc1", B "Advanced Video Coding extensions");
  (B "caqv", B "Casio Digital Camera");
  (B "da0a", B "DMB AF audio with MPEG Layer II audio, MOT slide show, DLS, JPG/PNG/MNG images");
  (B "da0b", B "DMB AF, extending da0a , with 3GPP timed text, DID, TVA, REL, IPMP");
  (B "da1a", B "DMB AF audio with ER-BSAC audio, JPG/PNG/MNG images");
  (B "da1b", B "DMB AF, extending da1a, with 3GPP timed text, DID, TVA, REL, IPMP");
  (B "da2a", B "DMB AF audio with HE-AAC v2 audio, MOT slide show, DLS, JPG/PNG/MNG images");
  (B "da2b", B "DMB AF extending da2a, with 3GPP timed text, DID, TVA, REL, IPMP");
  (B "da3a", B "DMB AF audio with HE-AAC, JPG/PNG/MNG images");
  (B "da3b", B "DMB AF extending da3a with BIFS, 3GPP timed text, DID, TVA, REL, IPMP");
  (B "dece", B "Conforming to DECE 1.0 (UltraViolet)");
  (B "dmb1", B "DMB AF supporting all the components defined in the specification");
  (B "dv1a", B "DMB AF video with AVC video, ER-BSAC audio, BIFS, JPG/PNG/MNG images, TS");
  (B "dv1b", B "DMB AF, extending dv1a, with 3GPP timed text, DID, TVA, REL, IPMP");
  (B "dv2a", B "DMB AF video with AVC video, HE-AACv2 audio, BIFS, JPG/PNG/MNG images, TS");
  (B "dv2b", B "DMB AF extending dv2a, with 3GPP timed text, DID, TVA, REL, IPMP");
  (B "dv3a", B "DMB AF video with AVC video, HE-AAC audio, BIFS, JPG/PNG/MNG images, TS");
  (B "dv3b", B "DMB AF extending dv3a with 3GPP timed text, DID, TVA, REL, IPMP");
  (B "dvr1", B "DVB RTP");
  (B "dvt1", B "DVB Transport Stream");
  (B "isc2", B "Files encrypted according to ISMACryp 2.0");
  (B "iso2", B "All files based on the 2004 edition of the ISO file format");
  (B "iso3", B "Version of the ISO file format");
  (B "iso4", B "Version of the ISO file format");
  (B "isom", B "All files based on the ISO Base Media File Format");
  (B "jpsi", B "The JPSearch data interchange format");
  (B "mj2s", B "Motion JPEG 2000 simple profile");
  (B "mjp2", B "Motion JPEG 2000, general profile");
  (B "mp21", B "MPEG-21");
  (B "mp41", B "MP4 version 1");
  (B "mp42", B "MP4 version 2");
  (B "mp71", B "MPEG-7 file-level metadata");
  (B "niko", B "Nikon Digital Camera");
  (B "odcf", B "OMA DCF (DRM Content Format)");
  (B "opf2", B "OMA PDCF (DRM Content Format)");
  (B "opx2", B "OMA Adapted PDCF");
  (B "pana", B "Panasonic Digital Camera");
  (B "piff", B "Protected Interoperable File Format");
  (B "qt  ", B "QuickTime");
  (B "sdv ", B "SD Video")].

(** mp4.hpp:64-126 *)
Fixpoint brand_lookup (rows : list (bytes * bytes)) (code : bytes) : bytes :=
  match rows with
  | [] => B "Unknonw FTYP"
  | (c, n) :: t => if bytes_eqb code c then n else brand_lookup t code
  end.
Definition GetBrandName (code : bytes) : bytes := brand_lookup brand_names code.

(** mp4.hpp:8-18.  [Version] here is a new member that hides the inherited one, which keeps
    the value 0. *)
Record Mp4Info := mkMp4 { v_base : ExtensionInfo; v_Version : N; v_Brand : bytes; v_BrandCode : bytes }.

(** mp4.hpp:128-144.  [ReadUInt] is called with its default byte-order flag. *)
Definition mp4_detail (buffer : bytes) : res Mp4Info :=
  v <- ReadUInt buffer (lenN buffer) 12 false ;;
  code <- slice buffer 8 4 ;;
  Ok (mkMp4 (mkExt (B "mp4") [] [] 0 (B "MPEG-4 Media File")) v (GetBrandName code) code).

(** The [ToX] methods of mp4.hpp:19-60 are not [const] and override nothing. *)
Definition mp4_Detailer (buffer : bytes) : res (list Result) :=
  i <- mp4_detail buffer ;; Ok [plain_result (v_base i)].

(** ** riff.hpp *)

(** riff.hpp:10-14, 21-30: pattern at offset 8 and extension, in the order tested *)
Definition riff_kinds : list (bytes * bytes) := [
  ([x43; x44; x44; x41; x66; x6d; x74; x20], B "cda");
  ([x57; x41; x56; x45; x66; x6d; x74; x20], B "wav");
  ([x41; x56; x49; x20; x4c; x49; x53; x54], B "avi");
  ([x51; x4c; x43; x4d; x66; x6d; x74; x20], B "qcp");
  ([x52; x4d; x49; x44; x64; x61; x74; x61], B "rmi")].

Fixpoint riff_try (rows : list (bytes * bytes)) (buffer : bytes) : res bytes :=
  match rows with
  | [] => Ok (B "riff")
  | (pat, ext) :: t =>
      hit <- checkMagic buffer (lenN buffer) pat 8 8 ;;
      if hit then Ok ext else riff_try t buffer
  end.

(** riff.hpp:8-37 *)
Definition riff_Detailer (buffer : bytes) : res (list Result) :=
  ext <- riff_try riff_kinds buffer ;; Ok [plain_result (mkExt ext [] [] 0 [])].

(** ** jpeg.hpp:8-14 *)
Definition jpeg_Detailer : res (list Result) := Ok [plain_result (mkExt (B "jpg") [] [] 0 [])].

(** ** autocad.hpp *)

(** autocad.hpp:16-49: the nested tests on [buffer[4]] and [buffer[5]] *)
Definition dwg_version (b4 b5 : N) : bytes :=
  if b4 =? 48 then
    if b5 =? 50 then B "AutoCAD R2.5"
    else if b5 =? 51 then B "AutoCAD R2.6"
    else if b5 =? 52 then B "AutoCAD R9"
    else if b5 =? 54 then B "AutoCAD R10"
    else if b5 =? 57 then B "AutoCAD R11/R12"
    else []
  else if b4 =? 49 then
    if b5 =? 48 then B "AutoCAD R13 (subtype 10)"
    else if b5 =? 49 then B "AutoCAD R13 (subtype 11)"
    else if b5 =? 50 then B "AutoCAD R13 (subtype 12)"
    else if b5 =? 51 then B "AutoCAD R14 (subtype 13)"
    else if b5 =? 52 then B "AutoCAD R14 (subtype 14)"
    else if b5 =? 53 then B "AutoCAD R2000"
    else if b5 =? 56 then B "AutoCAD R2004"
    else []
  else if b4 =? 50 then
    if b5 =? 49 then B "AutoCAD R2007" else []
  else [].

(** autocad.hpp:9-53 *)
Definition dwg_Detailer (buffer : bytes) : res (list Result) :=
  if 5 <? lenN buffer then
    b4 <- rd buffer 4 ;;
    b5 <- rd buffer 5 ;;
    Ok [plain_result (mkExt (B "dwg") [] [] 0 (dwg_version b4 b5))]
  else Ok [plain_result (mkExt (B "dwg") [] [] 0 [])].
