(** Vocabulary for the parts of a compound file and the documents the program prints for them. *)
From Coq Require Import List NArith ZArith Bool Strings.String.
From Verif Require Import Lib.Res Lib.Bytes Lib.Text Common.Model Common.Spec Common.Fields Common.Utf8 Magic.Table Magic.Model Ole.Model Ole.Spec Ole.Statements
     Vba.Analyze Vba.Output Vba.DirSpec Vba.FileSpec Propset.Model Propset.Output Propset.Spec Docs.Model Docs.Spec Detect.Model Detect.Spec Program.Model.
From Verif Require Excel.Engine Excel.DocStatements Docs.Statements.
From Verif Require Import Magic.Spec Magic.DocProofs Magic.DocBase Vba.Statements Propset.Statements Detect.Statements Program.Statements.
Import ListNotations.
Local Open Scope N_scope.

(** ** Documents *)
Definition at_version (k : kind) (v : N) (name : bytes) : ExtensionInfo := mkExt (k_extension k) (k_name k) [] v name.
(** What the stream of a kind says about the program that wrote it; [current] are the bytes of [/Current User]. *)
Inductive document (current b : bytes) : kind -> ExtensionInfo -> Prop :=
| doc_plain k : k_reader k = None -> document current b k (at_version k 0 (k_version k))
| doc_word k n o name : k_reader k = Some RWord -> word_stream b n o -> name_in word_products (match o with Some v => v | None => n end) name ->
    document current b k (at_version k (match o with Some v => v | None => n end) name)
| doc_word_other k n cb name : k_reader k = Some RWord -> number_at b 2 2 n -> number_at b 152 2 cb -> 255 < cb \/ lenN b < 158 + 8 * cb ->
    name_in word_products n name -> document current b k (at_version k n name)
| doc_word_short k : k_reader k = Some RWord -> lenN b < 154 -> document current b k (at_version k 65535 (B "Unknown"))
| doc_presentation k v : k_reader k = Some RPowerPoint -> presentation current b v -> document current b k (at_version k v (GetVersion_Powerpoint v))
| doc_presentation_short k : k_reader k = Some RPowerPoint -> lenN current < 28 -> document current b k (at_version k 65535 (B "Unknown"))
| doc_presentation_outside k o : k_reader k = Some RPowerPoint -> 28 <= lenN current -> number_at current 16 4 o -> lenN b < o + 36 ->
    document current b k (at_version k 65535 (B "Unknown"))
| doc_publication k v name : k_reader k = Some RPublisher -> number_at b 4 2 v -> v <> 300 -> name_in publisher_products v name ->
    document current b k (at_version k v name)
| doc_publication_later k v name : k_reader k = Some RPublisher -> number_at b 4 2 300 -> number_at b (Docs.Statements.second windows) 2 v ->
    name_in publisher_products v name -> document current b k (at_version k v name)
| doc_drawing k v name : k_reader k = Some RVisio -> number_at b 26 2 v -> name_in visio_products v name -> document current b k (at_version k v name)
| doc_installer k : k_reader k = Some RInstaller -> ~ contains Docs.Statements.msm b -> contains Docs.Statements.msi b \/ ~ contains Docs.Statements.msp b -> document current b k (at_version k 0 (k_version k))
| doc_merge_module k : k_reader k = Some RInstaller -> contains Docs.Statements.msm b ->
    document current b k (mkExt (B "msm") (B "Microsoft Installer Merge File") [] 0 (k_version k))
| doc_patch k : k_reader k = Some RInstaller -> ~ contains Docs.Statements.msm b -> ~ contains Docs.Statements.msi b -> contains Docs.Statements.msp b ->
    document current b k (mkExt (B "msp") (B "Microsoft Installer Patch File") [] 0 (k_version k)).

(** ** Parts *)
Inductive part :=
| PNone
| PDocument (e : ExtensionInfo)
| PWorkbook (i : Engine.excel_info)
| PPerfect
| PMacros (q : project)
| PSets (path : list N) (sets : list pset).
(** The project for a stored one with its sources. *)
Definition project_for (version : N) (p : vba_project) (codes : list bytes) : project :=
  mkProject version (vp_name p) [] (map (fun '(m, code) => module_of m code) (combine (vp_modules p) codes)) (vp_major p / 65536 + 65536 * vp_minor p) 12.
(** What an entry of a compound file holds. *)
Inductive holds_part (f : bytes) (c : compound) (msg : exn -> bytes) (current : bytes) : visit -> part -> Prop :=
| hp_none v : quiet v -> holds_part f c msg current v PNone
| hp_document names b k e : ~ In (last names []) property_names -> In k kinds -> tells (path_text names) k -> document current b k e ->
    holds_part f c msg current (VStream names b) (PDocument e)
| hp_workbook names b k i : ~ In (last names []) property_names -> In k kinds -> tells (path_text names) k -> k_reader k = Some RExcel ->
    lenN b < 2 ^ 30 -> Engine.Detailer windows msg b = Ok i -> holds_part f c msg current (VStream names b) (PWorkbook i)
| hp_perfect names b k : ~ In (last names []) property_names -> In k kinds -> tells (path_text names) k -> k_reader k = Some RWordPerfect ->
    holds_part f c msg current (VStream names b) PPerfect
| hp_macros names version p codes : macro_storage names -> good_project p -> vp_references p = [] -> lenN (dir_stored p) < 2 ^ 32 - 64 ->
    project_streams f c names version p codes -> holds_part f c msg current (VStorage names) (PMacros (project_for version p codes))
| hp_sets_short names b : In (last names []) property_names -> 0 < lenN b -> lenN b < 28 -> holds_part f c msg current (VStream names b) PNone
| hp_sets names b sets : In (last names []) property_names -> lenN b + 12 < 2 ^ 32 -> property_sets b sets -> none_of is_name sets ->
    holds_part f c msg current (VStream names b) (PSets (path_text names) sets).
(** Entries that cannot be read, and what looking at them comes to. *)
Inductive spoils (f : bytes) (c : compound) (msg : exn -> bytes) : visit -> res bytes -> Prop :=
| sp_drawing names b k : ~ In (last names []) property_names -> In k kinds -> tells (path_text names) k -> k_reader k = Some RVisio -> lenN b < 28 ->
    spoils f c msg (VStream names b) UB
| sp_publication names b k : ~ In (last names []) property_names -> In k kinds -> tells (path_text names) k -> k_reader k = Some RPublisher ->
    lenN b < 6 \/ number_at b 4 2 300 /\ lenN b < Docs.Statements.second windows + 2 -> spoils f c msg (VStream names b) UB
| sp_workbook names b k r : ~ In (last names []) property_names -> In k kinds -> tells (path_text names) k -> k_reader k = Some RExcel ->
    Engine.Detailer windows msg b = r -> (forall i, r <> Ok i) -> spoils f c msg (VStream names b) (_ <- r ;; Ok [])
| sp_macros names : macro_storage names -> lacks c (names ++ [text (B "VBA"); text (B "_VBA_PROJECT")]) -> spoils f c msg (VStorage names) UB.
(** Parts that can be written. *)
Definition json_part (p : part) : Prop :=
  match p with
  | PWorkbook i => (exists t, Engine.contents_json windows i = Ok t) /\ Forall json_literal (Excel.DocStatements.raw_of i)
  | PPerfect => False
  | PSets _ sets => none_of is_special sets
  | _ => True
  end.
Definition xml_part (p : part) : Prop :=
  match p with
  | PWorkbook i => (exists t, Engine.contents_xml windows i = Ok t) /\ Forall xml_literal (Excel.DocStatements.raw_of i)
  | PPerfect => False
  | PMacros q => Forall (fun m => ~ contains cdata_close (md_Code m)) (pr_Modules q)
  | _ => True
  end.
Definition is_result (p : part) : bool := match p with PDocument _ | PWorkbook _ | PPerfect | PMacros _ => true | _ => false end.
Definition part_sets (l : list part) : list (list N * list pset) :=
  flat_map (fun p => match p with PSets path sets => [(path, sets)] | _ => [] end) l.
(** What is said about a stream of WordPerfect. *)
Definition perfect_file : ExtensionInfo := mkExt (B "wp") [] [] 0 (B "Word Perfect File").
(** What is said about a compound file that has nothing to report. *)
Definition bare_file : ExtensionInfo := mkExt (B "oless") [] [] 0 (B "OLE Structured Storage").

(** ** JSON *)
Definition entry_json (ge : bytes * entry) (j : jval) : Prop :=
  exists fmt s v, format_is (fst ge) fmt /\ taken_for (e_value (snd ge)) s /\ json_stored windows (e_id (snd ge)) s v /\
    j = property_object (PropertyIdentifierToString fmt (e_id (snd ge))) (PropertyTypeToString (type_of (e_value (snd ge)))) v.
Definition sets_json (g : list N * list pset) (j : jval) : Prop :=
  exists u l, utf8 u (fst g) /\ Forall2 entry_json (all_entries (snd g)) l /\ j = JObj [jfield (B "Group") u; (map b2n (B "properties"), JArr l)].
(** The members for the paths and the property sets. *)
Definition part_members (items : list item) (parts : list part) (ms : list (list N * jval)) : Prop :=
  exists us g gs, Forall2 (fun p u => utf8 u p) (all_paths items) us /\ sorted_by_key (part_sets parts) g /\ Forall2 sets_json g gs /\
    ms = list_member (B "Paths") (map (fun u => JStr (map b2n u)) us) ++ list_member (B "properties") gs.
(** The objects for the parts: the first document has the members for the paths and property sets. *)
Inductive json_objects : list (list N * jval) -> list part -> list jval -> Prop :=
| jos_end ms : json_objects ms [] []
| jos_none ms ps vs : json_objects ms ps vs -> json_objects ms (PNone :: ps) vs
| jos_sets ms path sets ps vs : json_objects ms ps vs -> json_objects ms (PSets path sets :: ps) vs
| jos_document ms e ps vs : json_objects [] ps vs -> json_objects ms (PDocument e :: ps) (JObj (item_members e ++ ms) :: vs)
| jos_workbook ms i ws ps vs : Excel.DocStatements.workbook_members windows i ws -> json_objects [] ps vs ->
    json_objects ms (PWorkbook i :: ps) (JObj (item_members (Engine.x_ext i) ++ ms ++ ws) :: vs)
| jos_macros ms q ps vs : json_objects ms ps vs -> json_objects ms (PMacros q :: ps) (JObj (item_members (vba_base q) ++ project_members q) :: vs).
Definition shown_objects (ms : list (list N * jval)) (parts : list part) (vs : list jval) : Prop :=
  if existsb is_result parts then json_objects ms parts vs else vs = [JObj (item_members bare_file ++ ms)].

(** ** XML *)
Definition xml_number (bits f top : N) (bias : Z) (x : xnode) : Prop :=
  let neg := (top + 1) * 2 ^ f <=? bits in
  (forall m e, ieee f top bias bits m e -> exists t j, x = xfield (B "Value") t /\ json_value t j /\ nearest_six neg m e j) /\
  (Propset.Spec.field bits f top = top -> fraction bits f = 0 -> x = xfield (B "Value") (if neg then B "-inf" else B "inf")) /\
  (Propset.Spec.field bits f top = top -> fraction bits f <> 0 -> exists t, x = xfield (B "Value") t).
Definition xml_stored (v : stored) (x : xnode) : Prop :=
  match v with
  | SI2 z | SI4 z => x = xfield (B "Value") (dec (Z.to_N (z mod 2 ^ 64)))
  | SR4 bits => xml_number bits 23 255 150 x
  | SR8 bits => xml_number bits 52 2047 1075 x
  | SBool b => x = xfield (B "Value") (if b then B "true" else B "false")
  | STime n => x = xfield (B "Value") (dec n)
  | SText _ s | SName _ s => x = xescaped (B "Value") (filter (fun c => negb (byte_eqb c x00)) s)
  | SWide u => exists t, x = xescaped (B "Value") t /\ (Forall scalar u -> utf8 t (filter (fun c => negb (c =? 0)) u))
  | SOther _ => x = xfield (B "Value") (B "unknown")
  end.
Definition entry_xml (ge : bytes * entry) (x : xnode) : Prop :=
  exists fmt s v, format_is (fst ge) fmt /\ taken_for (e_value (snd ge)) s /\ xml_stored s v /\
    x = property_element (PropertyIdentifierToString fmt (e_id (snd ge))) (PropertyTypeToString (type_of (e_value (snd ge)))) v.
Definition sets_xml (g : list N * list pset) (x : xnode) : Prop :=
  exists u l, utf8 u (fst g) /\ Forall2 entry_xml (all_entries (snd g)) l /\ x = XElem (B "Group") [xescaped (B "Name") u; XElem (B "properties") l].
Definition part_elements (items : list item) (parts : list part) (ms : list xnode) : Prop :=
  exists us g gs, Forall2 (fun p u => utf8 u p) (all_paths items) us /\ sorted_by_key (part_sets parts) g /\ Forall2 sets_xml g gs /\
    ms = list_element (B "Paths") (comma_separated (map (xescaped (B "Path")) us)) ++ list_element (B "properties") gs.
Inductive xml_objects : list xnode -> list part -> list xnode -> Prop :=
| xos_end ms : xml_objects ms [] []
| xos_none ms ps xs : xml_objects ms ps xs -> xml_objects ms (PNone :: ps) xs
| xos_sets ms path sets ps xs : xml_objects ms ps xs -> xml_objects ms (PSets path sets :: ps) xs
| xos_document ms e ps xs : xml_objects [] ps xs -> xml_objects ms (PDocument e :: ps) (XElem (B "item") (base_elements e ++ ms) :: xs)
| xos_workbook ms i ws ps xs : Excel.DocStatements.workbook_elements windows i ws -> xml_objects [] ps xs ->
    xml_objects ms (PWorkbook i :: ps) (XElem (B "item") (base_elements (Engine.x_ext i) ++ ms ++ ws) :: xs)
| xos_macros ms q ps xs : xml_objects ms ps xs -> xml_objects ms (PMacros q :: ps) (XElem (B "item") (base_elements (vba_base q) ++ project_nodes q) :: xs).
Definition shown_elements (ms : list xnode) (parts : list part) (xs : list xnode) : Prop :=
  if existsb is_result parts then xml_objects ms parts xs else xs = [XElem (B "item") (base_elements bare_file ++ ms)].

(** ** Rows *)
(** The columns for a result: documents have three, everything else five. *)
Definition separated (sep : bytes) (cols : list bytes) : bytes :=
  match cols with [] => [] | x :: r => x ++ List.concat (map (fun y => sep ++ y) r) end.
Definition three (sep : bytes) (e : ExtensionInfo) : bytes := separated sep [Extension e; VersionName e; dec (Version e)].
Definition five (sep : bytes) (e : ExtensionInfo) : bytes := separated sep [Extension e; Name e; SubType e; dec (Version e); VersionName e].
Definition part_row (sep : bytes) (p : part) : list bytes :=
  match p with PDocument e => [three sep e] | PWorkbook i => [three sep (Engine.x_ext i)] | PPerfect => [three sep perfect_file] | PMacros q => [five sep (vba_base q)] | _ => [] end.
Definition part_rows (sep : bytes) (parts : list part) : list bytes :=
  if existsb is_result parts then flat_map (part_row sep) parts else [three sep bare_file].

(** ** Other signatures *)
(** The rows of the table before and behind that of compound files. *)
Definition is_oless (mi : MagicInfo) : bool := match mi_func mi with Some POless => true | _ => false end.
Fixpoint rows_before (l : list MagicInfo) : list MagicInfo :=
  match l with [] => [] | mi :: r => if is_oless mi then [] else mi :: rows_before r end.
Fixpoint rows_behind (l : list MagicInfo) : list MagicInfo :=
  match l with [] => [] | mi :: r => if is_oless mi then r else rows_behind r end.
(** The rows that the file carries. *)
Inductive carried (f : bytes) : list MagicInfo -> list MagicInfo -> Prop :=
| ca_nil : carried f [] []
| ca_yes mi l r : carries f mi -> carried f l r -> carried f (mi :: l) (mi :: r)
| ca_no mi l r : ~ carries f mi -> carried f l r -> carried f (mi :: l) r.
Definition row_object (mi : MagicInfo) : jval := JObj (item_members (row_info mi)).
Definition row_element (mi : MagicInfo) : xnode := item_element (row_info mi).
