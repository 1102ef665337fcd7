(** Model of /repo/fileid/document/wp/wordperfect.hpp.  Definitions only. *)
From Coq Require Import List NArith ZArith Bool Strings.String.
From Verif Require Import Lib.Res Lib.Bytes Lib.Text Common.Model Magic.Model Exe.Model.
Import ListNotations.
Local Open Scope N_scope.

(** wordperfect.hpp:22-75 *)
Definition wp_file_types : list (N * bytes) := [
  (1, B "Macro file");
  (2, B "Help file");
  (3, B "Keyboard definition file");
  (4, B "VAX keyboard definition file added for WP 5.1");
  (10, B "WordPerfect document");
  (11, B "Dictionary file");
  (12, B "Thesaurus file");
  (13, B "Block");
  (14, B "Rectangular block");
  (15, B "Column block");
  (16, B "Printer resource file");
  (17, B "Setup file [contains the system values for WP{WP}.SET");
  (18, B "Reserved");
  (19, B "Printer resource file");
  (20, B "Display resource file");
  (21, B "Overlay file");
  (22, B "WP graphic file");
  (23, B "Hyphenation code module");
  (24, B "Hyphenation data module");
  (25, B "Macro resource file");
  (26, B "Graphics screen-driver file");
  (27, B "Hyphenation lex module");
  (28, B "Printer Q codes");
  (29, B "Spell code module word list");
  (30, B "WP.QRS file");
  (31, B "Reserved");
  (32, B "VAX.SET");
  (33, B "Spell code module rules");
  (34, B "Dictionary rules");
  (35, B "Reserved");
  (36, B ".WPD files");
  (37, B "Rhymer word file");
  (38, B "Rhymer pronunciation file");
  (39, B "Reserved");
  (40, B "Reserved");
  (41, B "WP 51.INS file");
  (42, B "Mouse driver for WP5.1");
  (43, B "UNIX setup file for WP5.0");
  (44, B "Macintosh WP2.0 document");
  (45, B "VAX file");
  (46, B "External spell code module");
  (47, B "External spell dictionary");
  (48, B "Macintosh SOFT graphics file");
  (49, B "Reserved");
  (55, B "Reserved");
  (56, B "WPWin 5.1 Application Resource Library added for WPWin 5.1")].
Definition fileTypeToString (k : N) : bytes :=
  match lookup wp_file_types k with Some v => v | None => B "Unknown" end.

(** wordperfect.hpp:11-19: the layout the compiler gives to [wpheader].  The two leading
    [unsigned long] fields take [sizeof_long] bytes each. *)
Definition wp_prod_type (p : platform) : N := 2 * sizeof_long p.
Definition wp_file_type (p : platform) : N := 2 * sizeof_long p + 1.
Definition wp_major (p : platform) : N := 2 * sizeof_long p + 2.
Definition wp_minor (p : platform) : N := 2 * sizeof_long p + 3.
Definition wp_encrypt (p : platform) : N := 2 * sizeof_long p + 4.

(** wordperfect.hpp:78-85: the object.  [Header] is a pointer into a buffer: the bytes it
    points at while that buffer lives, [None] once it has been destroyed. *)
Record WpInfo := mkWp { wp_base : ExtensionInfo; wp_Header : option bytes }.

(** Reading [n] bytes through [Header] *)
Definition wp_read (i : WpInfo) (off n : N) : res N :=
  match wp_Header i with Some b => s <- slice b off n ;; Ok (le s) | None => UB end.

Definition wp_ext : ExtensionInfo := mkExt (B "wp") [] [] 0 (B "Word Perfect File").

(** wordperfect.hpp:132-136: [StreamDetailer] stores [stream.data()]; [stream] is a by-value
    parameter, destroyed when the call returns. *)
Definition wp_StreamDetailer (stream : bytes) : WpInfo := mkWp wp_ext (Some stream).
Definition wp_after_return (i : WpInfo) : WpInfo := mkWp (wp_base i) None.

(** wordperfect.hpp:138-144 *)
Definition wp_Detailer (buffer : bytes) : list WpInfo := [wp_after_return (wp_StreamDetailer buffer)].

(** wordperfect.hpp:87-99 *)
Definition wp_ToJson (p : platform) (i : WpInfo) : res bytes :=
  prod <- wp_read i (wp_prod_type p) 1 ;;
  ft <- wp_read i (wp_file_type p) 1 ;;
  maj <- wp_read i (wp_major p) 1 ;;
  min <- wp_read i (wp_minor p) 1 ;;
  enc <- wp_read i (wp_encrypt p) 4 ;;
  Ok (B "{" ++ buildBaseJson (wp_base i) ++
      B ", " ++ q ++ B "Header" ++ q ++ B ": {" ++
      q ++ B "ProductType" ++ q ++ B ":" ++ q ++ dec prod ++ q ++
      B "," ++ q ++ B "FileType" ++ q ++ B ":" ++ q ++ fileTypeToString ft ++ q ++
      B "," ++ q ++ B "MajorVersion" ++ q ++ B ":" ++ q ++ dec maj ++ q ++
      B "," ++ q ++ B "MinorVersion" ++ q ++ B ":" ++ q ++ dec min ++ q ++
      B "," ++ q ++ B "Encrypt" ++ q ++ B ":" ++ q ++ dec enc ++ q ++ B "}}").

(** wordperfect.hpp:100-114 *)
Definition wp_ToXml (p : platform) (i : WpInfo) : res bytes :=
  prod <- wp_read i (wp_prod_type p) 1 ;;
  ft <- wp_read i (wp_file_type p) 1 ;;
  maj <- wp_read i (wp_major p) 1 ;;
  min <- wp_read i (wp_minor p) 1 ;;
  enc <- wp_read i (wp_encrypt p) 4 ;;
  Ok (B "<item>" ++ buildBaseXml (wp_base i) ++ B "<Header>" ++
      B "<ProductType>" ++ dec prod ++ B "</ProductType>" ++
      B "<FileType>" ++ fileTypeToString ft ++ B "</FileType>" ++
      B "<MajorVersion>" ++ dec maj ++ B "</MajorVersion>" ++
      B "<MinorVersion>" ++ dec min ++ B "</MinorVersion>" ++
      B "<Encrypt>" ++ dec enc ++ B "</Encrypt>" ++ B "</Header>" ++ B "</item>").

(** wordperfect.hpp:115-128 *)
Definition wp_ToText (i : WpInfo) : res bytes :=
  Ok (Extension (wp_base i) ++ [x09] ++ VersionName (wp_base i) ++ [x09] ++ dec (Version (wp_base i))).
Definition wp_ToCsv (i : WpInfo) : res bytes :=
  Ok (Extension (wp_base i) ++ [x2c] ++ VersionName (wp_base i) ++ [x2c] ++ dec (Version (wp_base i))).

(** The rendering the output routine asks for *)
Definition wp_render (p : platform) (f : OutputFormat) (i : WpInfo) : res bytes :=
  match f with
  | TEXT => wp_ToText i | JSON => wp_ToJson p i | XML => wp_ToXml p i | CSV => wp_ToCsv i
  end.
