(** The whole program: /repo/fileid/fileid.cpp:48-113 with the content parsers of
    /repo/fileid/magic.h:163-315 put in.  Definitions only.

    Simplified: the library for archives is a parameter ([archive], what [ZipFile::Open] gives), as are
    the texts of exceptions that are kept ([msg]).  An exception while the results are being printed is
    the outcome [Throw]; what was printed before is left out. *)
From Coq Require Import List NArith Bool Strings.String.
From Verif Require Import Lib.Res Lib.Bytes Lib.Text Common.Model Magic.Table Magic.Model Exe.Model Media.Model Media.WordPerfect
     Asf.Model Zip.Model Detect.Model Detect.Output.
From Verif Require Excel.Engine.
Import ListNotations.
Local Open Scope N_scope.

(** ** Results of all parsers *)

(** An [ExtensionInfo*]: an object whose renderings cannot fail, or an object of the parser of compound
    files or of the one of WordPerfect files. *)
Inductive object := OResult (r : Result) | OFile (f : found).
(** The global variables the parsers change: the list of oless.hpp:219-223 and [extMap] of
    ziphelper.hpp:143-150 *)
Record globals := mkGlobals { g_rows : list OlessInfo; g_map : list bytes }.

(** document/excel/ExcelExtensionInfo.hpp:29-94: the workbook of a stream *)
Definition workbook_of (pl : platform) (x : Engine.excel_info) : workbook :=
  mkWorkbook (Engine.x_ext x) (Engine.contents_json pl x) (Engine.contents_xml pl x).
Definition read_workbook (pl : platform) (msg : exn -> bytes) (stream : bytes) : res workbook :=
  x <- Engine.Detailer pl msg stream ;; Ok (workbook_of pl x).

Section Program.
Variable pl : platform.
Variable msg : exn -> bytes.
Variable archive : option bytes -> res (list zentry).

Definition plain_objects (l : res (list Result)) (g : globals) : res (list object * globals) :=
  l <- l ;; Ok (map OResult l, g).

(** The function pointers of magic.h:163-315 *)
Definition detail (p : parser) (file : option bytes) (buffer : bytes) (g : globals) : res (list object * globals) :=
  match p with
  | PExec => plain_objects (exec_Detailer pl file) g
  | PMachO => plain_objects (macho_Detailer file) g
  | PZip => t <- zip_Detailer pl (archive file) (g_map g) ;; Ok (map OResult (fst t), mkGlobals (g_rows g) (snd t))
  | POless =>
      let '(l, rows) := Detailer pl (read_workbook pl msg) (g_rows g) file in
      l <- l ;; Ok (map OFile l, mkGlobals rows (g_map g))
  | PDwg => plain_objects (dwg_Detailer buffer) g
  | PWordPerfect => Ok (map (fun i => OFile (FWordPerfect i)) (wp_Detailer buffer), g)
  | PMp4 => plain_objects (mp4_Detailer buffer) g
  | PAsf => plain_objects (asf_Detailer pl file buffer) g
  | PRiff => plain_objects (riff_Detailer buffer) g
  | PJpeg => plain_objects jpeg_Detailer g
  end.

(** fileid.cpp:55-74 *)
Definition try_row (file : option bytes) (buffer : bytes) (mi : MagicInfo) (g : globals) : res (list object * globals) :=
  hit <- checkMagic buffer (u32 (lenN buffer)) (mi_magic mi) (mi_size mi) (mi_offset mi) ;;
  if hit then
    match mi_func mi with
    | Some p => detail p file buffer g
    | None => Ok ([OResult (plain_result (signature_info mi))], g)
    end
  else Ok ([], g).
(** fileid.cpp:54-75 *)
Fixpoint try_rows (file : option bytes) (buffer : bytes) (rows : list MagicInfo) (g : globals) : res (list object * globals) :=
  match rows with
  | [] => Ok ([], g)
  | mi :: rest =>
      a <- try_row file buffer mi g ;;
      b <- try_rows file buffer rest (snd a) ;;
      Ok (fst a ++ fst b, snd b)
  end.

(** fileid.cpp:48-77 and 102-105, at the start of the program: the list of signatures is [table] *)
Definition results (file : option bytes) : res (list object) :=
  let buffer := readFile file (getMinimumBufferSize table) in
  t <- (if 0 <? lenN buffer then try_rows file buffer table (mkGlobals [] []) else Ok ([], mkGlobals [] [])) ;;
  Ok (match fst t with [] => [OResult (UnknownExtension file)] | l => l end).

(** The virtual method the output routine calls *)
Definition show (f : OutputFormat) (o : object) : res bytes :=
  match o with
  | OResult r => Ok (match f with JSON => eJson (r_out r) | XML => eXml (r_out r) | TEXT => eText (r_out r) | CSV => eCsv (r_out r) end)
  | OFile x => render pl f x
  end.

(** common.hpp:691-731 for renderings that are all there *)
Definition layout (f : OutputFormat) (file headerName : bytes) (shown : list bytes) : bytes :=
  match f with
  | TEXT => file ++ nl ++ List.concat (map (fun e => [x09] ++ e ++ nl) shown)
  | XML => B "<file>" ++ B "<name>" ++ XmlEscape file ++ B "</name>" ++
           B "<" ++ headerName ++ B ">" ++ List.concat shown ++ B "</" ++ headerName ++ B ">" ++ B "</file>"
  | JSON => B "{" ++ q ++ B "name" ++ q ++ B ":" ++ q ++ JsonEscape file ++ q ++ B "," ++
            q ++ headerName ++ q ++ B ":[" ++ join (B ",") shown ++ B "]}"
  | CSV => List.concat (map (fun e => e ++ nl) shown)
  end.

(** fileid.cpp:95-113: the bytes printed for the arguments [args] *)
Definition program (fs : bytes -> option bytes) (args : list bytes) : res bytes :=
  match args with
  | [] => Ok (B "fileid {file} [format]" ++ nl)
  | file :: more =>
      let f := match more with [] => TEXT | x :: _ => ParseOutputFormat x end in
      l <- results (fs file) ;;
      shown <- mapM (show f) l ;;
      Ok (layout f file (B "extensions") shown)
  end.
End Program.
