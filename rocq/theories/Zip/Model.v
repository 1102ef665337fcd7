(** Model of /repo/fileid/zip/ziphelper.hpp.  Definitions only.  ZipLib, a submodule that is not part
    of the repository, is represented by what it reports: opening a file gives the entries of the
    archive in order or fails, and an entry has the fields below. *)
From Coq Require Import List NArith Bool Strings.String.
From Verif Require Import Lib.Res Lib.Bytes Lib.Text Common.Model Magic.Model Ole.Model Vba.Analyze Vba.Output Detect.Model Docs.Model Zip.Tables.
Import ListNotations.
Local Open Scope N_scope.

(** [z_size] and [z_csize] are of type [size_t]; [z_data] is the decompressed text, [None] if
    [GetDecompressionStream] gives a null pointer. *)
Record zentry := mkEntry {
  z_name : bytes; z_size : N; z_csize : N; z_password : bool; z_deflate : bool; z_comment : bytes; z_crc : N; z_data : option bytes }.

(** [ZipArchive::GetEntry] by name: the first entry that has it *)
Definition GetEntry (es : list zentry) (name : bytes) : option zentry :=
  List.find (fun e => bytes_eqb (z_name e) name) es.

(** ** The details, ziphelper.hpp:25-122, 444-461 *)

(** [std::to_string] of an [int] converted from [size_t] *)
Definition int_text (n : N) : bytes :=
  let m := n mod 2 ^ 32 in
  if m <? 2 ^ 31 then dec m else B "-" ++ dec (2 ^ 32 - m).
Definition bit (b : bool) : bytes := if b then B "1" else B "0".
Definition method (e : zentry) : bytes := if z_deflate e then B "DEFLATE" else B "stored".
Definition zip_info : ExtensionInfo := mkExt (B "zip") (B "Zip File") [] 0 [].
(** ziphelper.hpp:60-68 *)
Definition child_json (e : zentry) : bytes :=
  B "{" ++ B """Name"":""" ++ z_name e ++ B """" ++ B ", ""Size"":""" ++ dec (z_size e) ++ B """" ++
  B ", ""CompressedSize"":""" ++ int_text (z_csize e) ++ B """" ++ B ", ""CompressionMethod"":""" ++ method e ++ B """" ++
  B ", ""IsPassworded"":""" ++ bit (z_password e) ++ B """" ++ B ", ""Comment"":""" ++ z_comment e ++ B """" ++
  B ", ""CRC32"":""" ++ dec (z_crc e) ++ B """" ++ B "}".
(** ziphelper.hpp:47-76; the subtype is empty *)
Definition zip_json (es : list zentry) : bytes :=
  B "{ ""extension"" : ""zip""" ++ B ", ""name"":""Zip File""" ++
  (match es with [] => [] | _ => B ", ""children"":[" ++ join (B ",") (map child_json es) ++ B "]" end) ++ B "}".
(** ziphelper.hpp:90-98 *)
Definition child_xml (e : zentry) : bytes :=
  B "<file>" ++ B "<Name>" ++ z_name e ++ B "</Name>" ++ B "<Size>" ++ dec (z_size e) ++ B "</Size>" ++
  B "<CompressedSize>" ++ int_text (z_csize e) ++ B "</CompressedSize>" ++ B "<CompressionMethod>" ++ method e ++ B "</CompressionMethod>" ++
  B "<IsPassworded>" ++ bit (z_password e) ++ B "</IsPassworded>" ++ B "<Comment>" ++ z_comment e ++ B "</Comment>" ++
  B "<CRC32>" ++ dec (z_crc e) ++ B "</CRC32>" ++ B "</file>".
(** ziphelper.hpp:77-103 *)
Definition zip_xml (es : list zentry) : bytes :=
  B "<item>" ++ B "<extension>zip</extension>" ++ B "<name>Zip File</name>" ++
  (match es with [] => [] | _ => B "<children>" ++ List.concat (map child_xml es) ++ B "</children>" end) ++ B "</item>".
(** ziphelper.hpp:104-121 are the inherited rows again *)
Definition zip_result (es : list zentry) : Result :=
  mkResult zip_info (mkExp (zip_json es) (zip_xml es) (ext_ToText zip_info) (ext_ToCsv zip_info)).

(** ** Kinds *)
Definition kind_result (k : bytes * bytes) : Result := plain_result (mkExt (fst k) (snd k) [] 0 []).
(** The comparisons one after the other *)
Fixpoint table_lookup (t : list (bytes * (bytes * bytes))) (s : bytes) : option (bytes * bytes) :=
  match t with
  | [] => None
  | (x, k) :: r => if bytes_eqb s x then Some k else table_lookup r s
  end.
(** ziphelper.hpp:134-142, 468-477 *)
Definition CheckEntries (es : list zentry) : list Result :=
  flat_map (fun r => match GetEntry es (fst r) with Some _ => [kind_result (snd r)] | None => [] end) marker_entries.

(** The results so far and the keys of the global [extMap] *)
Definition zstate := (list Result * list bytes)%type.
Definition seen (x : bytes) (map : list bytes) : bool := existsb (bytes_eqb x) map.
(** ziphelper.hpp:143-150 *)
Definition addExtension (r : Result) (t : zstate) : zstate :=
  let '(ans, m) := t in
  let x := Extension (r_info r) in
  if seen x m then t else (ans ++ [r], x :: m).
(** ziphelper.hpp:153-279, 281-384 *)
Definition CheckType (table : list (bytes * (bytes * bytes))) (ctype : bytes) (t : zstate) : zstate :=
  match table_lookup table ctype with Some k => addExtension (kind_result k) t | None => t end.

(** ** VBA, ziphelper.hpp:398-442 *)

(** pole.h:607-624, 916-936, 1477-1500: a storage for which [open] was not called *)
Definition unopened : storage :=
  mkStorage [] (mkHeader pole_magic 9 6 0 0 4096 0 0 4294967294 0 (List.repeat Avail 109)) new_table new_table
            [mkDir true (wide (B "Root Entry")) true 0 End End End End] [].
(** ziphelper.hpp:125-132 *)
Definition hasEnding (s e : bytes) : bool := if lenN e <=? lenN s then bytes_eqb (dropN (lenN s - lenN e) s) e else false.
(** ziphelper.hpp:414-440: for every name the content of the entry is copied to a temporary file and
    analyzed through a storage that is not opened; a null pointer is used for an entry without a
    stream.  The last result is kept. *)
Fixpoint analyze_bins (pl : platform) (es : list zentry) (names : list bytes) (ei : Result) : res Result :=
  match names with
  | [] => Ok ei
  | n :: r =>
      match GetEntry es n with
      | None => UB
      | Some e =>
          match z_data e with
          | None => UB
          | Some _ =>
              match Analyze pl [slash] unopened with
              | Ok p => analyze_bins pl es r (vba_result (vba_base p) p)
              | Throw x =>
                  analyze_bins pl es r
                    (vba_result (mkExt (B "vba") (B "Visual Basic for Applications") (B "ERROR") 0 []) (mkProject 0 (what pl x) [] [] 0 0))
              | UB => UB
              | Fuel => Fuel
              end
          end
      end
  end.
Definition GetVBA (pl : platform) (es : list zentry) : res Result :=
  analyze_bins pl es (map z_name (filter (fun e => hasEnding (z_name e) (B "bin")) es))
    (kind_result (B "vba", B "Visual Basic For Applications")).

(** ** The scan for content types, ziphelper.hpp:492-508 *)

(** [std::string::find]: the index of the first occurrence *)
Fixpoint index_of (p s : bytes) : option N :=
  if starts_with p s then Some 0
  else match s with [] => None | _ :: r => match index_of p r with Some i => Some (i + 1) | None => None end end.
Definition marker : bytes := B "ContentType=""".
(** The values one after the other, as nothing else happens to [start].  The search for the quote
    begins behind the first character of the value. *)
Fixpoint scan (fuel : nat) (s : bytes) : res (list bytes) :=
  match fuel with
  | O => Fuel
  | S k =>
      match index_of marker s with
      | None => Ok []
      | Some i =>
          match dropN (i + 13) s with
          | [] => Ok []
          | c :: u =>
              match index_of [x22] u with
              | None => Ok []
              | Some j => l <- scan k (dropN (j + 1) u) ;; Ok ((c :: takeN j u) :: l)
              end
          end
      end
  end.
Definition ctypes_of (s : bytes) : res (list bytes) := scan (S (List.length s)) s.

Fixpoint check_types (pl : platform) (es : list zentry) (l : list bytes) (t : zstate) : res zstate :=
  match l with
  | [] => Ok t
  | c :: r =>
      let t := CheckType content_types c t in
      t <- (if bytes_eqb c (B "application/vnd.ms-office.vbaProject") then v <- GetVBA pl es ;; Ok (addExtension v t) else Ok t) ;;
      check_types pl es r t
  end.

(** ziphelper.hpp:386-396 *)
Definition GetFile (e : zentry) : bytes := match z_data e with Some d => d | None => [] end.

(** ziphelper.hpp:463-526.  [archive] is what [ZipFile::Open] does, [m] the global map before the
    call; the map afterwards is returned, too. *)
Definition zip_Detailer (pl : platform) (archive : res (list zentry)) (m : list bytes) : res zstate :=
  es <- archive ;;
  t <- (match GetEntry es (B "[Content_Types].xml") with
        | Some e => l <- ctypes_of (GetFile e) ;; check_types pl es l (CheckEntries es, m)
        | None => Ok (CheckEntries es, m)
        end) ;;
  let t := match GetEntry es (B "mimetype") with
           | Some e => match GetFile e with [] => t | s => CheckType mime_types s t end
           | None => t
           end in
  let '(ans, m) := t in
  Ok (match ans with [] => [zip_result es] | _ => ans end, m).
