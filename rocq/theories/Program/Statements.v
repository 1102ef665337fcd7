(** Vocabulary for the whole program that mentions the objects of the models. *)
From Coq Require Import List NArith Bool Strings.String.
From Verif Require Import Lib.Res Lib.Bytes Lib.Text Common.Model Common.Spec Common.Utf8 Common.EscapeProofs Magic.Table Magic.Model
     Exe.Tables Exe.Model Exe.Spec Media.Model Media.WordPerfect Asf.Model Zip.Model Vba.Analyze Vba.Output Propset.Model Propset.Spec Propset.Statements
     Ole.Spec Detect.Model Detect.Output Vba.FileSpec Detect.Spec Program.Model.
From Verif Require Excel.Engine Excel.DocStatements Zip.Statements Asf.Statements.
From Verif Require Import Magic.Spec Magic.DocProofs Magic.DocBase Vba.Statements Detect.Statements.
Import ListNotations.
Local Open Scope N_scope.

(** What a content parser says about a file when it is called first. *)
Definition parser_says (pl : platform) (msg : exn -> bytes) (archive : option bytes -> res (list zentry)) (content : bytes) (p : parser)
  : res (list object) :=
  let plain l := l <- l ;; Ok (map OResult l) in
  match p with
  | PExec => plain (exec_Detailer pl (Some content))
  | PMachO => plain (macho_Detailer (Some content))
  | PZip => t <- zip_Detailer pl (archive (Some content)) [] ;; Ok (map OResult (fst t))
  | POless => l <- Guess pl (read_workbook pl msg) ole_list (Some content) ;; Ok (map OFile l)
  | PDwg => plain (dwg_Detailer (takeN 65536 content))
  | PWordPerfect => Ok [OFile (FWordPerfect (mkWp wp_ext None))]
  | PMp4 => plain (mp4_Detailer (takeN 65536 content))
  | PAsf => plain (asf_Detailer pl (Some content) (takeN 65536 content))
  | PRiff => plain (riff_Detailer (takeN 65536 content))
  | PJpeg => plain jpeg_Detailer
  end.
Definition row_says (mi : MagicInfo) : object := OResult (plain_result (row_info mi)).
(** Without results there is one for a file that is empty or unknown. *)
Definition or_unknown (content : bytes) (l : list object) : list object :=
  match l, content with
  | _ :: _, _ => l
  | [], [] => [OResult (plain_result (mkExt (B "empty") (B "Empty File") [] 0 []))]
  | [], _ => [OResult (unknown_result (takeN 512 content))]
  end.
(** Not [Ok] *)
Definition fails {A} (r : res A) : Prop := forall a, r <> Ok a.

(** ** Signatures *)
Definition mach_magics : list bytes :=
  [[xfe; xed; xfa; xce]; [xce; xfa; xed; xfe]; [xfe; xed; xfa; xcf]; [xcf; xfa; xed; xfe]].
Definition wp_magics : list bytes := [xff :: B "WPC"; [xff; xff; x61; x61]].
Definition asf_magic : bytes := [x30; x26; xb2; x75; x8e; x66; xcf; x11; xa6; xd9; x00; xaa; x00; x62; xce; x6c].
Definition starts (content magic : bytes) : Prop := occurs_at magic content 0.
Definition starts_one (content : bytes) (l : list bytes) : Prop := exists m, In m l /\ starts content m.
(** A file without an archive, a compound file or an ASF file in it. *)
Definition no_container (content : bytes) : Prop :=
  ~ starts content (B "PK") /\ ~ starts content [xd0; xcf; x11; xe0] /\ ~ starts content asf_magic.

(** Files in which the parsers of executables and movies find their headers. *)
Definition movie_ok (content : bytes) : Prop := occurs_at (B "ftyp") content 4 -> 16 <= lenN content.
Definition long_enough (content : bytes) : Prop :=
  (starts content (B "MZ") -> 64 <= lenN content) /\ (starts_one content mach_magics -> 28 <= lenN content) /\ movie_ok content.
Definition rows_only (f : OutputFormat) : Prop := f = TEXT \/ f = CSV.
(** The first parser of the list that gives no answer decides. *)
Definition stopped (pl : platform) (msg : exn -> bytes) (archive : option bytes -> res (list zentry)) (content : bytes) (l : list MagicInfo) (r : res (list object)) : Prop :=
  exists before mi after p found, l = before ++ mi :: after /\ reports content row_says (parser_says pl msg archive content) before found /\
    carries content mi /\ mi_func mi = Some p /\ parser_says pl msg archive content p = r /\ fails r.

(** ** Documents *)
Definition path_members (pl : platform) (paths : list (list N)) (props : groups) (ms : list (list N * jval)) : Prop :=
  exists us gs, Forall2 (fun p u => utf8 u p) paths us /\ Forall2 (group_value pl) props gs /\
    ms = list_member (B "Paths") (map (fun u => JStr (map b2n u)) us) ++ list_member (B "properties") gs.
Definition path_elements (paths : list (list N)) (props : groups) (l : list xnode) : Prop :=
  exists us gs, Forall2 (fun p u => utf8 u p) paths us /\ Forall2 group_node props gs /\
    l = list_element (B "Paths") (comma_separated (map (xescaped (B "Path")) us)) ++ list_element (B "properties") gs.
(** Paths and properties that can be written. *)
Definition json_paths (paths : list (list N)) (props : groups) : Prop :=
  Forall unicode paths /\
  Forall (fun g => unicode (fst g) /\ Forall (fun p => value_ok (p_value p) /\ is_finite (p_value p)) (snd g)) props.
Definition xml_paths (paths : list (list N)) (props : groups) : Prop :=
  Forall unicode paths /\ Forall (fun g => unicode (fst g) /\ Forall (fun p => value_ok (p_value p)) (snd g)) props.

(** The JSON value that describes a result. *)
Inductive json_of (pl : platform) (msg : exn -> bytes) : object -> jval -> Prop :=
| jo_plain e : info_plain e = true -> json_of pl msg (OResult (plain_result e)) (JObj (item_members e))
| jo_unknown s shown hexed : before_nul s shown -> hex_dump hexed s ->
    json_of pl msg (OResult (unknown_result s)) (JObj (unknown_members shown hexed))
| jo_macho content i : lenN content < 2 ^ 32 -> macho_detail (Some content) = Ok i ->
    json_of pl msg (OResult (macho_result i))
      (JObj (macho_members (VersionName (m_base i)) (m_CpuType i) (m_CpuSubType i) (dec (m_NumberLoadCommands i)) (dec (m_SizeLoadCommands i))))
| jo_asf base hs : info_plain base = true -> hs <> [] -> forallb Asf.Statements.obj_plain hs = true ->
    json_of pl msg (OResult (asf_result base hs)) (JObj (item_members base ++ [(map b2n (B "headers"), JArr (map Asf.Statements.obj_jval hs))]))
| jo_zip es l : Forall (fun e => json_literal (z_name e) /\ json_literal (z_comment e)) es -> Zip.Statements.described Zip.Statements.json_fields es l ->
    json_of pl msg (OResult (zip_result es)) (Zip.Statements.zip_object l)
| jo_oless e paths props ms : info_plain e = true -> json_paths paths props -> path_members pl paths props ms ->
    json_of pl msg (OFile (FOless e paths props)) (JObj (item_members e ++ ms))
| jo_excel (S : bytes) x t paths props ms ws : lenN S < 2 ^ 30 -> Engine.Detailer pl msg S = Ok x -> Engine.contents_json pl x = Ok t ->
    Forall json_literal (Excel.DocStatements.raw_of x) -> json_paths paths props -> path_members pl paths props ms ->
    Excel.DocStatements.workbook_members pl x ws ->
    json_of pl msg (OFile (FExcel (workbook_of pl x) paths props)) (JObj (item_members (Engine.x_ext x) ++ ms ++ ws))
| jo_vba e p : info_plain e = true -> Forall json_literal (pr_References p) ->
    json_of pl msg (OFile (FVba e p)) (JObj (item_members e ++ project_members p)).

(** The element that describes a result. *)
Inductive xml_of (pl : platform) (msg : exn -> bytes) : object -> xnode -> Prop :=
| xo_plain e : info_plain e = true -> xml_of pl msg (OResult (plain_result e)) (item_element e)
| xo_unknown s cdata hexed : xml_text cdata (map swap_angle (map b2n s)) -> hex_dump hexed s ->
    xml_of pl msg (OResult (unknown_result s)) (unknown_element cdata hexed)
| xo_macho content i : lenN content < 2 ^ 32 -> macho_detail (Some content) = Ok i ->
    xml_of pl msg (OResult (macho_result i))
      (XElem (B "item") (macho_children (if Version (m_base i) =? 0 then [] else dec (Version (m_base i))) (VersionName (m_base i))
                           (m_CpuType i) (m_CpuSubType i) (dec (m_NumberLoadCommands i)) (dec (m_SizeLoadCommands i))))
| xo_asf base hs : info_plain base = true -> hs <> [] -> forallb Asf.Statements.obj_plain hs = true ->
    xml_of pl msg (OResult (asf_result base hs)) (XElem (B "item") (base_elements base ++ [XElem (B "headers") (map Asf.Statements.obj_xnode hs)]))
| xo_zip es l : Forall (fun e => xml_literal (z_name e) /\ xml_literal (z_comment e)) es -> Zip.Statements.described Zip.Statements.xml_fields es l ->
    xml_of pl msg (OResult (zip_result es)) (Zip.Statements.zip_element l)
| xo_oless e paths props l : info_plain e = true -> xml_paths paths props -> path_elements paths props l ->
    xml_of pl msg (OFile (FOless e paths props)) (XElem (B "item") (base_elements e ++ l))
| xo_excel (S : bytes) x t paths props l ws : lenN S < 2 ^ 30 -> Engine.Detailer pl msg S = Ok x -> Engine.contents_xml pl x = Ok t ->
    Forall xml_literal (Excel.DocStatements.raw_of x) -> xml_paths paths props -> path_elements paths props l ->
    Excel.DocStatements.workbook_elements pl x ws ->
    xml_of pl msg (OFile (FExcel (workbook_of pl x) paths props)) (XElem (B "item") (base_elements (Engine.x_ext x) ++ l ++ ws))
| xo_vba e p : info_plain e = true -> Forall xml_literal (pr_References p) -> Forall (fun m => ~ contains cdata_close (md_Code m)) (pr_Modules p) ->
    xml_of pl msg (OFile (FVba e p)) (XElem (B "item") (base_elements e ++ project_nodes p)).

(** ** Results of compound files that can be written *)
Definition json_found (pl : platform) (msg : exn -> bytes) (x : found) : Prop :=
  match x with
  | FOless _ paths props => json_paths paths props
  | FExcel w paths props => json_paths paths props /\
      exists (S : bytes) i t, lenN S < 2 ^ 30 /\ Engine.Detailer pl msg S = Ok i /\ w = workbook_of pl i /\
        Engine.contents_json pl i = Ok t /\ Forall json_literal (Excel.DocStatements.raw_of i)
  | FWordPerfect _ => False
  | FVba _ p => Forall json_literal (pr_References p)
  end.
Definition xml_found (pl : platform) (msg : exn -> bytes) (x : found) : Prop :=
  match x with
  | FOless _ paths props => xml_paths paths props
  | FExcel w paths props => xml_paths paths props /\
      exists (S : bytes) i t, lenN S < 2 ^ 30 /\ Engine.Detailer pl msg S = Ok i /\ w = workbook_of pl i /\
        Engine.contents_xml pl i = Ok t /\ Forall xml_literal (Excel.DocStatements.raw_of i)
  | FWordPerfect _ => False
  | FVba _ p => Forall xml_literal (pr_References p) /\ Forall (fun m => ~ contains cdata_close (md_Code m)) (pr_Modules p)
  end.

(** An entry of a compound file that gives no result. *)
Definition quiet (v : visit) : Prop :=
  match v with
  | VStorage names => ~ macro_storage names
  | VStream names _ => ~ In (last names []) property_names /\ forall k, In k kinds -> ~ tells_low (path_text names) k
  end.
(** Among the entries [items], only the stream with the path [names] and the bytes [b] gives a result: it is that of a workbook. *)
Definition workbook_at (items : list item) (names : list (list N)) (b : bytes) : Prop :=
  exists before after k, all_visits items = before ++ VStream names b :: after /\ Forall quiet before /\ Forall quiet after /\
    ~ In (last names []) property_names /\ In k kinds /\ tells (path_text names) k /\ k_reader k = Some RExcel.
