(** Brands of files of the MP4 family and a phrase that the description of each has to contain.  The phrases were written down from
    memory after reading the code's table, with no copy of the register of brands at hand; they share no definition with the model,
    but are not an independent source. *)
From Coq Require Import List NArith Strings.String.
From Verif Require Import Lib.Bytes Lib.Text.
Import ListNotations.
Local Open Scope string_scope.

Definition brand_phrases : list (string * string) := [
  ("3g2a", "3GPP2"); ("3ge6", "Release 6 extended-presentation"); ("3gg6", "Release 6 General"); ("3gp4", "Release 4"); ("3gp5", "Release 5");
  ("3gp6", "Release 6 basic"); ("3gr6", "Release 6 progressive-download"); ("3gs6", "Release 6 streaming-server"); ("ARRI", "ARRI"); ("CAEP", "Canon");
  ("CDes", "Convergent"); ("LCAG", "Leica"); ("M4A ", "audio"); ("M4B ", "AudioBook"); ("M4P ", "protected audio"); ("M4V ", "video");
  ("MPPI", "Photo Player"); ("ROSS", "Ross"); ("avc1", "Advanced Video Coding"); ("caqv", "Casio"); ("da0a", "MPEG Layer II"); ("da0b", "extending da0a");
  ("da1a", "audio with ER-BSAC"); ("da1b", "extending da1a"); ("da2a", "HE-AAC v2"); ("da2b", "extending da2a"); ("da3a", "audio with HE-AAC,");
  ("da3b", "extending da3a"); ("dece", "DECE"); ("dmb1", "DMB AF supporting all"); ("dv1a", "AVC video, ER-BSAC"); ("dv1b", "extending dv1a");
  ("dv2a", "AVC video, HE-AACv2"); ("dv2b", "extending dv2a"); ("dv3a", "AVC video, HE-AAC audio"); ("dv3b", "extending dv3a"); ("dvr1", "DVB RTP");
  ("dvt1", "DVB Transport"); ("isc2", "ISMACryp 2.0"); ("iso2", "2004 edition"); ("iso3", "ISO file format"); ("iso4", "ISO file format");
  ("isom", "ISO Base Media File Format"); ("jpsi", "JPSearch"); ("mj2s", "Motion JPEG 2000 simple"); ("mjp2", "Motion JPEG 2000, general"); ("mp21", "MPEG-21");
  ("mp41", "MP4 version 1"); ("mp42", "MP4 version 2"); ("mp71", "MPEG-7"); ("niko", "Nikon"); ("odcf", "OMA DCF"); ("opf2", "OMA PDCF");
  ("opx2", "OMA Adapted PDCF"); ("pana", "Panasonic"); ("piff", "Protected Interoperable"); ("qt  ", "QuickTime"); ("sdv ", "SD Video")].
(** Brands in use that the program has no description for (from memory) *)
Definition undescribed_brands : list string := ["iso5"; "iso6"; "dash"; "heic"; "mif1"; "avif"; "f4v "; "3gp7"; "3g2b"].
Definition contains (phrase text : bytes) : Prop := exists a z, text = (a ++ phrase ++ z)%list.
