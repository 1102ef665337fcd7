(** Extensions the program can report. *)
From Coq Require Import List NArith Strings.String.
From Verif Require Import Lib.Res Lib.Bytes Common.Model Magic.Model Media.WordPerfect Zip.Model Detect.Model Program.Model Gen.Coverage.
Import ListNotations.
Local Open Scope N_scope.

(** The extension of a result. *)
Definition extension_of (o : object) : bytes :=
  match o with
  | OResult r => Extension (r_info r)
  | OFile (FOless e _ _) => Extension e
  | OFile (FExcel x _ _) => Extension (wb_ext x)
  | OFile (FWordPerfect i) => Extension (wp_base i)
  | OFile (FVba e _) => Extension e
  end.
(** One of the results for a file has the extension. *)
Definition reports_extension (pl : platform) (msg : exn -> bytes) (archive : option bytes -> res (list zentry)) (file : option bytes) (x : bytes) : Prop :=
  exists rs o, results pl msg archive file = Ok rs /\ In o rs /\ extension_of o = x.

Definition all_extensions : list bytes := [
  B "7z"; B "_"; B "accdb"; B "ace"; B "apk"; B "asf"; B "avi"; B "bmp"; B "bup"; B "bz2"; B "cab"; B "cda"; B "chm";
  B "class"; B "cur"; B "db"; B "dex"; B "dll"; B "dmp"; B "doc"; B "docm"; B "docx"; B "dotm"; B "dotx"; B "dwg";
  B "ear"; B "elf"; B "emf"; B "empty"; B "eps"; B "exe"; B "flac"; B "flv"; B "gif"; B "gz"; B "hdmp"; B "hlp";
  B "html"; B "hwp"; B "ico"; B "ipa"; B "irm"; B "iso"; B "jar"; B "jbf"; B "jpg"; B "lha"; B "lib"; B "lnk";
  B "mdb"; B "mdi"; B "midi"; B "mp3"; B "mp4"; B "mpp"; B "msg"; B "msi"; B "msm"; B "msp"; B "o"; B "obd"; B "obj";
  B "odb"; B "odc"; B "odf"; B "odg"; B "odi"; B "odm"; B "ods"; B "odt"; B "ole_dat"; B "ole_embedded"; B "ole_eq";
  B "oless"; B "one"; B "onetoc2"; B "opd"; B "otc"; B "otf"; B "otg"; B "oth"; B "oti"; B "otp"; B "ots"; B "ott";
  B "pcap"; B "pdb"; B "pdf"; B "pfm"; B "png"; B "potm"; B "potx"; B "ppam"; B "ppsm"; B "ppsx"; B "ppt"; B "pptm";
  B "pptx"; B "ps"; B "psp"; B "pst"; B "pub"; B "qcp"; B "rar"; B "riff"; B "rmi"; B "rpm"; B "rtf"; B "scorm_pif";
  B "sdc"; B "sdi"; B "sdw"; B "sh"; B "skp"; B "slk"; B "swf"; B "sys"; B "tar"; B "tar.z"; B "tiff"; B "ttf";
  B "unknown"; B "vba"; B "vbe"; B "vhd"; B "vhdx"; B "vmdk"; B "vsd"; B "wab"; B "war"; B "wav"; B "wim"; B "wma";
  B "wmv"; B "woff"; B "wp"; B "wps"; B "wri"; B "xap"; B "xlam"; B "xls"; B "xlsb"; B "xlsb_e4m"; B "xlsm";
  B "xlsm_e4m"; B "xlsx"; B "xltm"; B "xltx"; B "xml"; B "xpi"; B "xps"; B "xz"; B "zip"].

(** The list of formats says that files of the format are identified. *)
Definition claimed (x : bytes) : Prop := exists f, In f coverage /\ f_extension f = x /\ f_level f <> B "None".
