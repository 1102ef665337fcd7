(** The documents for the contents of compound files: fileid/oless/OleCommon.hpp:85-183 and
    document/excel/ExcelExtensionInfo.hpp:29-72. *)
From Coq Require Import List NArith Bool Strings.String.
From Verif Require Import Lib.Res Lib.Bytes Lib.Text Common.Model Magic.Model Vba.Output Propset.Model Propset.Output
     Media.WordPerfect Detect.Model.
Import ListNotations.
Local Open Scope N_scope.

(** [c_str()] as an argument: the characters before the first zero *)
Fixpoint c_string (w : list N) : list N :=
  match w with
  | [] => []
  | c :: r => if c =? 0 then [] else c :: c_string r
  end.
(** OleCommon.hpp:94, 124: a path in UTF-8 *)
Definition path_utf8 (p : list N) : res bytes := convert (c_string p).

(** OleCommon.hpp:100-112 *)
Definition group_json (pl : platform) (g : list N * list property) : res bytes :=
  k <- convert (fst g) ;;
  Ok (B "{""Group"":""" ++ JsonEscape k ++ B """,""properties"": [" ++ join (B ",") (map (ToJson pl) (snd g)) ++ B "]}").
(** OleCommon.hpp:87-116 *)
Definition oless_base_json (pl : platform) (e : ExtensionInfo) (paths : list (list N)) (props : groups) : res bytes :=
  ps <- mapM path_utf8 paths ;;
  gs <- mapM (group_json pl) props ;;
  Ok (buildBaseJson e ++
      (match ps with
       | [] => []
       | _ => B ", ""Paths"": [" ++ join (B ",") (map (fun p => B """" ++ JsonEscape p ++ B """") ps) ++ B "]"
       end) ++
      (match gs with
       | [] => []
       | _ => B ",""properties"": [" ++ join (B ",") gs ++ B "]"
       end)).

(** OleCommon.hpp:130-142 *)
Definition group_xml (pl : platform) (g : list N * list property) : res bytes :=
  k <- convert (fst g) ;;
  Ok (B "<Group>" ++ B "<Name>" ++ XmlEscape k ++ B "</Name>" ++
      B "<properties>" ++ List.concat (map (ToXML pl) (snd g)) ++ B "</properties>" ++ B "</Group>").
(** OleCommon.hpp:117-146 *)
Definition oless_base_xml (pl : platform) (e : ExtensionInfo) (paths : list (list N)) (props : groups) : res bytes :=
  ps <- mapM path_utf8 paths ;;
  gs <- mapM (group_xml pl) props ;;
  Ok (buildBaseXml e ++
      (match ps with
       | [] => []
       | _ => B "<Paths>" ++ join (B ",") (map (fun p => B "<Path>" ++ XmlEscape p ++ B "</Path>") ps) ++ B "</Paths>"
       end) ++
      (match gs with
       | [] => []
       | _ => B "<properties>" ++ List.concat gs ++ B "</properties>"
       end)).

(** OleCommon.hpp:155-182 *)
Definition oless_render (pl : platform) (f : OutputFormat) (e : ExtensionInfo) (paths : list (list N)) (props : groups) : res bytes :=
  match f with
  | JSON => b <- oless_base_json pl e paths props ;; Ok (B "{" ++ b ++ B "}")
  | XML => b <- oless_base_xml pl e paths props ;; Ok (B "<item>" ++ b ++ B "</item>")
  | TEXT => Ok (join [x09] [Extension e; VersionName e; dec (Version e)])
  | CSV => Ok (join [x2c] [Extension e; VersionName e; dec (Version e)])
  end.
(** ExcelExtensionInfo.hpp:29-72; the rows are inherited *)
Definition excel_render (pl : platform) (f : OutputFormat) (x : workbook) (paths : list (list N)) (props : groups) : res bytes :=
  let e := wb_ext x in
  match f with
  | JSON => b <- oless_base_json pl e paths props ;; r <- wb_json x ;; Ok (B "{" ++ b ++ r ++ B "}")
  | XML => b <- oless_base_xml pl e paths props ;; r <- wb_xml x ;; Ok (B "<item>" ++ b ++ r ++ B "</item>")
  | _ => oless_render pl f e paths props
  end.

(** The rendering the output routine asks for *)
Definition render (pl : platform) (f : OutputFormat) (r : found) : res bytes :=
  match r with
  | FOless e paths props => oless_render pl f e paths props
  | FExcel x paths props => excel_render pl f x paths props
  | FWordPerfect i => wp_render pl f i
  | FVba e p =>
      let o := r_out (vba_result e p) in
      Ok (match f with JSON => eJson o | XML => eXml o | TEXT => eText o | CSV => eCsv o end)
  end.
