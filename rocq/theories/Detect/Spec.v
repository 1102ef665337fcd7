(** Vocabulary for the contents of compound files.  Independent of [Detect/Model.v]. *)
From Coq Require Import List NArith Bool Sorted Permutation Strings.String.
From Verif Require Import Lib.Bytes Lib.Text Common.Spec Common.Fields Ole.Spec Vba.FileSpec.
Import ListNotations.
Local Open Scope N_scope.

(** ** The tree of a file *)
Inductive item :=
| IStream (name : list N) (content : bytes)
| IStorage (name : list N) (items : list item).

(** [holds f c k items]: the storage with index [k] of the directory has these items, in the order
    of the directory.  [lists] is the same for a list of indexes. *)
Inductive holds (f : bytes) (c : compound) : N -> list item -> Prop :=
| holds_storage k n l items :
    nthN (c_dir c) k = Some n -> n_type n = 1 \/ n_type n = 5 -> sorted_members node_lt (c_dir c) k l ->
    lists f c l items -> holds f c k items
with lists (f : bytes) (c : compound) : list N -> list item -> Prop :=
| lists_nil : lists f c [] []
| lists_stream j m content l items :
    nthN (c_dir c) j = Some m -> is_stream m -> plain_name (n_name m) -> stream_content f c m content ->
    lists f c l items -> lists f c (j :: l) (IStream (n_name m) content :: items)
| lists_storage j m sub l items :
    nthN (c_dir c) j = Some m -> n_type m = 1 -> plain_name (n_name m) -> holds f c j sub ->
    lists f c l items -> lists f c (j :: l) (IStorage (n_name m) sub :: items).

(** [below d k names j]: the storage [j] is reached from the storage [k] by these names. *)
Inductive below (d : list node) : N -> list (list N) -> N -> Prop :=
| below_here k : below d k [] k
| below_member k n l j m names i :
    nthN d k = Some n -> n_type n = 1 \/ n_type n = 5 -> sorted_members node_lt d k l -> In j l -> nthN d j = Some m ->
    n_type m = 1 -> plain_name (n_name m) -> below d j names i -> below d k (n_name m :: names) i.

(** ** The entries one after the other, a storage before its items *)
Inductive visit :=
| VStorage (names : list (list N))
| VStream (names : list (list N)) (content : bytes).
Fixpoint visits (above : list (list N)) (i : item) : list visit :=
  match i with
  | IStream n b => [VStream (above ++ [n]) b]
  | IStorage n l => VStorage (above ++ [n]) :: flat_map (visits (above ++ [n])) l
  end.
Definition all_visits (items : list item) : list visit := flat_map (visits []) items.
(** The text of a path; that of a storage ends with a slash. *)
Definition visit_text (v : visit) : list N :=
  match v with
  | VStorage names => path_text names ++ [47]
  | VStream names _ => path_text names
  end.
Definition all_paths (items : list item) : list (list N) := [47] :: map visit_text (all_visits items).

(** The bytes of a stream of the root storage; of none, no bytes. *)
Fixpoint root_stream (name : list N) (items : list item) : bytes :=
  match items with
  | [] => []
  | IStream n b :: r => if list_eq_dec N.eq_dec n name then b else root_stream name r
  | IStorage _ _ :: r => root_stream name r
  end.

(** ** Kinds of documents *)
Inductive reader := RWord | RExcel | RPowerPoint | RPublisher | RVisio | RWordPerfect | RInstaller.
(** The stream that tells the kind, whether its name is compared without regard to case, the
    extension, the name of the kind, its version and variant, and what reads the stream. *)
Record kind := mkKind {
  k_path : list N; k_any_case : bool; k_extension : bytes; k_name : bytes; k_version : bytes; k_variant : bytes;
  k_reader : option reader }.
Definition a (path : string) : list N := text (B path).
Definition kinds : list kind := [
  mkKind (a "/DRMContent") false (B "irm") (B "Microsoft Office Information Rights Managed File") [] (B "drm") None;
  mkKind (a "/" ++ [6] ++ a "DataSpaces/DataSpaceMap") false (B "irm") (B "Microsoft Office Encrypted Office File") [] (B "encrypted") None;
  mkKind (a "/WordDocument") false (B "doc") (B "Microsoft Office Word File") [] [] (Some RWord);
  mkKind (a "/Workbook") true (B "xls") (B "Microsoft Office Excel File") [] [] (Some RExcel);
  mkKind (a "/Book") true (B "xls") (B "Microsoft Office Excel File") [] [] (Some RExcel);
  mkKind (a "/PowerPoint Document") false (B "ppt") (B "Microsoft Office PowerPoint File") [] [] (Some RPowerPoint);
  mkKind (a "/PP40") false (B "ppt") (B "Microsoft Office PowerPoint File") (B "Powerpoint 4.0") [] None;
  mkKind (a "/Contents") false (B "pub") (B "Microsoft Office Publisher File") [] [] (Some RPublisher);
  mkKind (a "/VisioDocument") false (B "vsd") (B "Microsoft Office Visio File") [] [] (Some RVisio);
  mkKind (a "/__properties_version1.0") false (B "msg") (B "Microsoft Office Outlook Mail Message") [] [] None;
  mkKind (a "/Binder") false (B "obd") (B "Microsoft Office Binder") [] [] None;
  mkKind (a "/Props9") false (B "mpp") (B "Microsoft Project File") (B "Project 9") (B "Office 2003") None;
  mkKind (a "/Props12") false (B "mpp") (B "Microsoft Project File") (B "Project 12") (B "Office 2007") None;
  mkKind (a "/Props14") false (B "mpp") (B "Microsoft Project File") (B "Project 14") (B "Office 2010") None;
  mkKind (a "/Details") false (B "bup") (B "McAfee Quarantied File") [] [] None;
  mkKind (a "/CONTENTS") false (B "wps") (B "Microsoft Works File") [] [] None;
  mkKind (a "/MatOST") false (B "wps") (B "Microsoft Works File") [] [] None;
  mkKind (a "/StarCalcDocument") false (B "sdc") (B "StarOffice Calc File") [] [] None;
  mkKind (a "/StarWriterDocument") false (B "sdw") (B "StarOffice Write File") [] [] None;
  mkKind (a "/HwpSummaryInformation") false (B "hwp") (B "Hangul Word Processor File") [] [] None;
  mkKind (a "/" ++ [5] ++ a "HwpSummaryInformation") false (B "hwp") (B "Hangul Word Processor File") [] [] None;
  mkKind (a "/PerfectOffice_MAIN") false (B "wp") (B "WordPerfect File") [] [] (Some RWordPerfect);
  mkKind (a "/" ++ [18496; 16191; 17783; 17516; 15210; 17892; 18468]) false (B "msi") (B "Microsoft Installer File") [] [] (Some RInstaller);
  mkKind (a "/" ++ [1] ++ a "Ole10Native") true (B "ole_embedded") (B "OLE Native Stream (Embedded Object)") [] [] None;
  mkKind (a "/TravelLog") false (B "ole_dat") (B "Internet Explorer Recovery Store") [] [] None;
  mkKind (a "/Equation Native") true (B "ole_eq") (B "OLE Equation Editor") [] [] None].

(** Letters without regard to case. *)
Definition lower (c : N) : N := if (65 <=? c) && (c <=? 90) then c + 32 else c.
(** Equal but for the case of letters. *)
Definition same_letters (x y : list N) : Prop := Forall2 (fun p q => lower p = lower q) x y.
(** The same, but only of the lowest eight bits of every character. *)
Definition same_low_letters (x y : list N) : Prop := Forall2 (fun p q => lower (p mod 256) = lower (q mod 256)) x y.
(** A path tells a kind. *)
Definition tells (path : list N) (k : kind) : Prop := path = k_path k \/ (k_any_case k = true /\ same_letters path (k_path k)).
Definition tells_low (path : list N) (k : kind) : Prop := path = k_path k \/ (k_any_case k = true /\ same_low_letters path (k_path k)).

(** [p] is the part of [w] before the first zero. *)
Definition before_zero (w p : list N) : Prop := ~ In 0 p /\ (w = p \/ exists r, w = p ++ 0 :: r).

(** Storages of macros, and streams with properties. *)
Definition macro_names : list (list N) := [a "Macros"; a "_VBA_PROJECT_CUR"].
Definition macro_paths : list (list N) := [a "/VBA"; a "/VBA_Project"].
Definition macro_storage (names : list (list N)) : Prop := In (last names []) macro_names \/ In (path_text names) macro_paths.
Definition property_names : list (list N) :=
  [[5] ++ a "DocumentSummaryInformation"; [5] ++ a "SummaryInformation"; a "GlobalInfo"; a "ImageContents"; a "ImageInfo"].

(** Texts in the order of their characters, a shorter one first. *)
Fixpoint text_lt (x y : list N) : Prop :=
  match x, y with
  | [], _ :: _ => True
  | p :: x', q :: y' => p < q \/ (p = q /\ text_lt x' y')
  | _, _ => False
  end.
(** The same pairs, in the order of the keys. *)
Definition sorted_by_key {V} (l g : list (list N * V)) : Prop :=
  Permutation l g /\ StronglySorted text_lt (map fst g).
