(** Model of /repo/fileid/fileid.cpp and /repo/fileid/unknown.hpp.  Definitions only. *)
From Coq Require Import List NArith ZArith Bool Strings.String.
From Verif Require Import Lib.Res Lib.Bytes Lib.Text Common.Model Magic.Table.
Import ListNotations.
Local Open Scope N_scope.

(** ** Buffer sizing *)

(** One line [v |= v >> k] of fileid.cpp:26-30 *)
Definition smear (k v : N) : N := N.lor v (N.shiftr v k).

(** fileid.cpp:22-33 on 32-bit unsigned values *)
Definition roundUpPowerOfTwo (x : N) : N :=
  let v := subw 32 x 1 in
  u32 (smear 16 (smear 8 (smear 4 (smear 2 (smear 1 v)))) + 1).

(** common.hpp: #define STD_BUFFER_SIZE 512 *)
Definition STD_BUFFER_SIZE : N := 512.

(** fileid.cpp:35-46; [mi.size + mi.offset] is an [unsigned int] sum *)
Definition getMinimumBufferSize (list : list MagicInfo) : N :=
  roundUpPowerOfTwo
    (fold_left (fun ans mi =>
                  let size := u32 (mi_size mi + mi_offset mi) in
                  if ans <? size then size else ans) list STD_BUFFER_SIZE).

(** ** Results

    A result is the object the program holds: its public fields and its four renderings
    (virtual methods). *)
Record Result := mkResult { r_info : ExtensionInfo; r_out : Exportable }.

(** An object of class ExtensionInfo itself *)
Definition plain_result (e : ExtensionInfo) : Result := mkResult e (export_ext e).

(** fileid.cpp:65-71: the result for a signature without a content parser *)
Definition signature_info (mi : MagicInfo) : ExtensionInfo :=
  mkExt (mi_ext mi) (mi_name mi) (if 0 <? lenN (mi_version mi) then mi_version mi else []) 0 [].

(** unknown.hpp:13-53: class UnknownExtensionInfo for a non-empty sample *)
Definition unknown_info : ExtensionInfo := mkExt (B "unknown") [] [] 0 (B "Unknown File").

(** unknown.hpp:20-29 *)
Definition unknown_ToJson (sample : bytes) : bytes :=
  B "{" ++
  q ++ B "extension" ++ q ++ B " : " ++ q ++ Extension unknown_info ++ q ++
  B ", " ++ q ++ B "name" ++ q ++ B " : " ++ q ++ VersionName unknown_info ++ q ++
  B ", " ++ q ++ B "sampleStr" ++ q ++ B ":" ++ q ++ JsonEscape sample ++ q ++
  B ", " ++ q ++ B "sampleHex" ++ q ++ B ":" ++ q ++ bin2hex11 sample ++ q ++
  B "}".
(** unknown.hpp:30-39 *)
Definition unknown_ToXml (sample : bytes) : bytes :=
  B "<item>" ++
  B "<extension>" ++ Extension unknown_info ++ B "</extension>" ++
  B "<name>" ++ VersionName unknown_info ++ B "</name>" ++
  B "<sampleStr><![CDATA[" ++ XmlEscape sample ++ B "]]></sampleStr>" ++
  B "<sampleHex>" ++ bin2hex11 sample ++ B "</sampleHex>" ++
  B "</item>".
(** unknown.hpp:40-46 *)
Definition unknown_ToText : bytes :=
  Extension unknown_info ++ [x09] ++ VersionName unknown_info ++ [x09] ++ dec (Version unknown_info).
(** unknown.hpp:47-53 *)
Definition unknown_ToCsv : bytes :=
  Extension unknown_info ++ [x2c] ++ VersionName unknown_info ++ [x2c] ++ dec (Version unknown_info).

Definition unknown_result (sample : bytes) : Result :=
  mkResult unknown_info
           (mkExp (unknown_ToJson sample) (unknown_ToXml sample) unknown_ToText unknown_ToCsv).

(** fileid.cpp:86-89 *)
Definition empty_info : ExtensionInfo := mkExt (B "empty") (B "Empty File") [] 0 [].

(** fileid.cpp:79-93 *)
Definition UnknownExtension (file : option bytes) : Result :=
  let buffer := readFile file 512 in
  if 0 <? lenN buffer then unknown_result buffer else plain_result empty_info.

(** ** guessExtension, fileid.cpp:48-77

    The content parsers are a parameter: [run p file buffer] is the outcome of calling
    parser [p] with the file and the bytes already read. *)
Definition Parsers := parser -> option bytes -> bytes -> res (list Result).

(** The loop body, fileid.cpp:55-74 *)
Definition try_signature (run : Parsers) (file : option bytes) (buffer : bytes) (mi : MagicInfo)
  : res (list Result) :=
  hit <- checkMagic buffer (u32 (lenN buffer)) (mi_magic mi) (mi_size mi) (mi_offset mi) ;;
  if hit then
    match mi_func mi with
    | Some p => run p file buffer
    | None => Ok [plain_result (signature_info mi)]
    end
  else Ok [].

(** The loop over the global list, fileid.cpp:54-75 *)
Fixpoint scan (run : Parsers) (file : option bytes) (buffer : bytes) (list : list MagicInfo)
  : res (List.list Result) :=
  match list with
  | [] => Ok []
  | mi :: rest =>
      a <- try_signature run file buffer mi ;;
      b <- scan run file buffer rest ;;
      Ok (a ++ b)
  end.

(** magic.h:161-315: the global list and [initList], which appends the whole table. *)
Definition initList (list : list MagicInfo) : List.list MagicInfo := list ++ table.

(** fileid.cpp:48-77, returning the new contents of the global list and the answer *)
Definition guessExtension (run : Parsers) (global : list MagicInfo) (file : option bytes)
  : list MagicInfo * res (list Result) :=
  let l := initList global in
  let buffer := readFile file (getMinimumBufferSize l) in
  (l, if 0 <? lenN buffer then scan run file buffer l else Ok []).

(** fileid.cpp:95-107: what a run of the program reports for a file (the global list is
    empty at program start) *)
Definition identify (run : Parsers) (file : option bytes) : res (list Result) :=
  exts <- snd (guessExtension run [] file) ;;
  match exts with
  | [] => Ok [UnknownExtension file]
  | _ => Ok exts
  end.

(** fileid.cpp:95-113: the bytes printed for command-line arguments [args] (without the
    program name); [fs] is the file system.  An uncaught exception is [Throw]. *)
Definition main_output (run : Parsers) (fs : bytes -> option bytes) (args : list bytes) : res bytes :=
  match args with
  | [] => Ok (B "fileid {file} [format]" ++ nl)
  | file :: more =>
      let fmt := match more with [] => TEXT | f :: _ => ParseOutputFormat f end in
      exts <- identify run (fs file) ;;
      Ok (Output fmt file (B "extensions") (map r_out exts))
  end.
