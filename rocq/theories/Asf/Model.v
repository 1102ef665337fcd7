(** Model of /repo/fileid/media/asf/asf.hpp.  Definitions only. *)
From Coq Require Import List NArith ZArith Bool Strings.String.
From Verif Require Import Lib.Res Lib.Bytes Lib.Text Common.Model Magic.Model Asf.Tables.
Import ListNotations.
Local Open Scope N_scope.

(** asf.hpp:149-215 on a 16-byte array *)
Fixpoint guid_lookup (rows : list (bytes * bytes)) (guid : bytes) : bytes :=
  match rows with
  | [] => B "Unknown"
  | (g, n) :: t => if bytes_eqb guid g then n else guid_lookup t guid
  end.
Definition ASFTypeFromGuid (guid : bytes) : bytes := guid_lookup guid_types guid.

(** common.hpp:222-227: copying [size] bytes from [buffer + off].  [reserve] throws above the
    largest vector size; running out of memory below it is not modelled. *)
Definition readBuffer (buffer : bytes) (off size : N) : res bytes :=
  if 2 ^ 63 - 1 <? size then Throw LengthError else slice buffer off size.

(** [std::wstring(reinterpret_cast<wchar_t const*>(buffer + off), n)], then [convert] and
    [erasenulls]: the pattern of asf.hpp:642-643 and its repetitions. *)
Definition wide (p : platform) (buffer : bytes) (off n : N) : res bytes :=
  s <- slice buffer off (n * sizeof_wchar p) ;;
  c <- convert (to_wchars p s) ;;
  Ok (erasenulls c).

(** asf.hpp:802-809 *)
Record codec_entry := mkCodec {
  c_size : N; c_type : N; c_name : bytes; c_desc : bytes; c_info : bytes }.

(** asf.hpp:284-290 and the classes derived from it.  [data] is the inherited member; the
    header object leaves it empty.  Children of a header extension are objects again. *)
Inductive asf_object : Type :=
| AUnknown (type data : bytes)
| AHeader (size number reserved1 reserved2 : N)
| AFile (data file_id : bytes)
        (file_size creation dp_count play_duration send_duration preroll : N)
        (flags min_dp_size max_dp_size max_bitrate : N)
| AStream (data stream_type error_correction_type : bytes)
          (time_offset type_len error_len flags reserved : N) (type_data error_data : bytes)
| AExt (data clock_type : bytes) (clock_size data_size : N) (ext_data : bytes)
       (children : list asf_object)
| AContent (data title author copyright description rating : bytes)
| AExtContent (data : bytes) (count : N) (content : list (bytes * bytes))
| ACodecs (data codec_id : bytes) (count : N) (codecs : list codec_entry).

(** The [data] member *)
Definition obj_data (o : asf_object) : bytes :=
  match o with
  | AUnknown _ d => d
  | AHeader _ _ _ _ => []
  | AFile d _ _ _ _ _ _ _ _ _ _ _ => d
  | AStream d _ _ _ _ _ _ _ _ _ => d
  | AExt d _ _ _ _ _ => d
  | AContent d _ _ _ _ _ => d
  | AExtContent d _ _ => d
  | ACodecs d _ _ _ => d
  end.

(** The [type] member.  asf.hpp:621 stores ASF_Header_Extension_Object in a content
    description. *)
Definition obj_type (o : asf_object) : bytes :=
  match o with
  | AUnknown t _ => t
  | AHeader _ _ _ _ => B "ASF_Header_Object"
  | AFile _ _ _ _ _ _ _ _ _ _ _ _ => B "ASF_File_Properties_Object"
  | AStream _ _ _ _ _ _ _ _ _ _ => B "ASF_Stream_Properties_Object"
  | AExt _ _ _ _ _ _ => B "ASF_Header_Extension_Object"
  | AContent _ _ _ _ _ _ => B "ASF_Header_Extension_Object"
  | AExtContent _ _ _ => B "ASF_Extended_Content_Description_Object"
  | ACodecs _ _ _ _ => B "ASF_Codec_List_Object"
  end.

(** ** Constructors *)

(** asf.hpp:322-328 *)
Definition asf_header (p : platform) (data : bytes) (totalSize : N) : res asf_object :=
  number <- ReadULong p data (lenN data) 0 ;;
  r1 <- rd data 4 ;;
  r2 <- rd data 5 ;;
  Ok (AHeader totalSize number r1 r2).

(** asf.hpp:365-395 *)
Definition file_properties (p : platform) (data : bytes) : res asf_object :=
  let max := lenN data in
  id <- slice data 0 16 ;;
  fsize <- ReadULongLong data max 16 ;;
  creation <- ReadULongLong data max 24 ;;
  dp_count <- ReadULongLong data max 32 ;;
  play <- ReadULongLong data max 40 ;;
  send <- ReadULongLong data max 48 ;;
  preroll <- ReadULongLong data max 56 ;;
  flags <- ReadULong p data max 64 ;;
  min_dp <- ReadULong p data max 68 ;;
  max_dp <- ReadULong p data max 72 ;;
  bitrate <- ReadULong p data max 76 ;;
  Ok (AFile data id fsize creation dp_count play send preroll flags min_dp max_dp bitrate).

(** asf.hpp:449-484 *)
Definition stream_properties (p : platform) (data : bytes) : res asf_object :=
  let max := lenN data in
  g1 <- slice data 0 16 ;;
  g2 <- slice data 16 16 ;;
  time <- ReadULongLong data max 32 ;;
  tlen <- ReadULong p data max 40 ;;
  elen <- ReadULong p data max 44 ;;
  flags <- ReadUShort data max 48 false ;;
  reserved <- ReadULong p data max 50 ;;
  tdata <- readBuffer data 54 tlen ;;
  edata <- readBuffer data (u32 (54 + tlen)) elen ;;
  Ok (AStream data (ASFTypeFromGuid g1) (ASFTypeFromGuid g2) time tlen elen flags reserved tdata edata).

(** asf.hpp:551-558: the loop over the extension data.  [rec] parses the object at an index;
    when it yields nothing the index does not move. *)
Fixpoint ext_loop (fuel : nat) (rec : N -> res (option asf_object)) (size index : N)
  : res (list asf_object) :=
  match fuel with
  | O => Fuel
  | S k =>
      if index <? size then
        o <- rec index ;;
        match o with
        | Some c =>
            rest <- ext_loop k rec size (u32 (index + 24 + lenN (obj_data c))) ;;
            Ok (c :: rest)
        | None => ext_loop k rec size index
        end
      else Ok []
  end.

(** asf.hpp:528-559; [rec ext index] stands for [Parse] on the extension data *)
Definition header_extension (fuel : nat) (rec : bytes -> N -> res (option asf_object)) (p : platform)
           (data : bytes) : res asf_object :=
  let max := lenN data in
  g <- slice data 0 16 ;;
  r2 <- ReadUShort data max 16 false ;;
  size <- ReadULong p data max 18 ;;
  ext <- readBuffer data 22 size ;;
  children <- ext_loop fuel (rec ext) size 0 ;;
  Ok (AExt data (ASFTypeFromGuid g) r2 size ext children).

(** asf.hpp:620-663 *)
Definition content_description (p : platform) (data : bytes) : res asf_object :=
  let max := lenN data in
  l1 <- ReadUShort data max 0 false ;;
  l2 <- ReadUShort data max 2 false ;;
  l3 <- ReadUShort data max 4 false ;;
  l4 <- ReadUShort data max 6 false ;;
  l5 <- ReadUShort data max 8 false ;;
  title <- wide p data 10 (l1 / 2) ;;
  let i := u32 (10 + l1) in
  author <- wide p data i (l2 / 2) ;;
  let i := u32 (i + l2) in
  copyright <- wide p data i (l3 / 2) ;;
  let i := u32 (i + l3) in
  description <- wide p data i (l4 / 2) ;;
  let i := u32 (i + l4) in
  rating <- wide p data i (l5 / 2) ;;
  Ok (AContent data title author copyright description rating).

(** asf.hpp:715-738: the value text.  [ReadUInt] is called with its default byte-order flag. *)
Definition descriptor_value (p : platform) (type : N) (v : bytes) : res bytes :=
  if type =? 0 then wide p v 0 (lenN v / 2)
  else if type =? 1 then Ok (bin2hex11 v)
  else if type =? 2 then b <- rd v 0 ;; Ok (if b =? 0 then B "false" else B "true")
  else if type =? 3 then n <- ReadUInt v (lenN v) 0 false ;; Ok (dec n)
  else if type =? 4 then n <- ReadULongLong v (lenN v) 0 ;; Ok (dec n)
  else if type =? 5 then n <- ReadUShort v (lenN v) 0 false ;; Ok (dec n)
  else Ok [].

(** asf.hpp:696-741: name, value and total size *)
Definition content_descriptor (p : platform) (buffer : bytes) (max offset : N) : res (bytes * bytes * N) :=
  nlen <- ReadUShort buffer max offset false ;;
  let i := u32 (offset + 2) in
  name <- wide p buffer i (nlen / 2) ;;
  let i := u32 (i + nlen) in
  type <- ReadUShort buffer max i false ;;
  let i := u32 (i + 2) in
  vlen <- ReadUShort buffer max i false ;;
  let i := u32 (i + 2) in
  v <- readBuffer buffer i vlen ;;
  let i := u32 (i + vlen) in
  value <- descriptor_value p type v ;;
  Ok (name, value, subw 32 i offset).

(** asf.hpp:759-764, for the remaining [count] descriptors.  Every descriptor takes at least
    six bytes, so the bound given below is never what ends the loop. *)
Fixpoint descriptor_loop (fuel : nat) (p : platform) (data : bytes) (count index : N)
  : res (list (bytes * bytes)) :=
  if count =? 0 then Ok []
  else
    match fuel with
    | O => Fuel
    | S k =>
        d <- content_descriptor p data (lenN data) index ;;
        let '(name, value, size) := d in
        rest <- descriptor_loop k p data (count - 1) (u32 (index + size)) ;;
        Ok ((name, value) :: rest)
    end.

(** asf.hpp:749-766 *)
Definition extended_content (p : platform) (data : bytes) : res asf_object :=
  count <- ReadUShort data (lenN data) 0 false ;;
  l <- descriptor_loop (S (List.length data)) p data count 2 ;;
  Ok (AExtContent data count l).

(** asf.hpp:811-839 *)
Definition codec_entry_at (p : platform) (buffer : bytes) (max offset : N) : res codec_entry :=
  type <- ReadUShort buffer max offset false ;;
  let i := u32 (offset + 2) in
  nlen <- ReadUShort buffer max i false ;;
  let i := u32 (i + 2) in
  name <- wide p buffer i nlen ;;
  let i := u32 (i + nlen * 2) in
  dlen <- ReadUShort buffer max i false ;;
  let i := u32 (i + 2) in
  desc <- wide p buffer i dlen ;;
  let i := u32 (i + dlen * 2) in
  ilen <- ReadUShort buffer max i false ;;
  let i := u32 (i + 2) in
  info <- readBuffer buffer i ilen ;;
  let i := u32 (i + ilen) in
  Ok (mkCodec (subw 32 i offset) type name desc info).

(** asf.hpp:871-876, for the remaining [count] codecs.  Every entry takes at least eight
    bytes, so the bound given below is never what ends the loop (nor does the 32-bit loop
    counter overflow for data below 4 GiB). *)
Fixpoint codec_loop (fuel : nat) (p : platform) (data : bytes) (count index : N)
  : res (list codec_entry) :=
  if count =? 0 then Ok []
  else
    match fuel with
    | O => Fuel
    | S k =>
        c <- codec_entry_at p data (lenN data) index ;;
        rest <- codec_loop k p data (count - 1) (u32 (index + c_size c)) ;;
        Ok (c :: rest)
    end.

(** asf.hpp:857-878 *)
Definition codec_list (p : platform) (data : bytes) : res asf_object :=
  g <- slice data 0 16 ;;
  count <- ReadULong p data (lenN data) 16 ;;
  l <- codec_loop (S (List.length data)) p data count 20 ;;
  Ok (ACodecs data (ASFTypeFromGuid g) count l).

(** The switch of asf.hpp:956-981 *)
Definition make_object (fuel : nat) (rec : bytes -> N -> res (option asf_object)) (p : platform)
           (guid data : bytes) (size : N) : res asf_object :=
  let t := ASFTypeFromGuid guid in
  if bytes_eqb t (B "ASF_Header_Object") then asf_header p data size
  else if bytes_eqb t (B "ASF_File_Properties_Object") then file_properties p data
  else if bytes_eqb t (B "ASF_Stream_Properties_Object") then stream_properties p data
  else if bytes_eqb t (B "ASF_Header_Extension_Object") then header_extension fuel rec p data
  else if bytes_eqb t (B "ASF_Content_Description_Object") then content_description p data
  else if bytes_eqb t (B "ASF_Extended_Content_Description_Object") then extended_content p data
  else if bytes_eqb t (B "ASF_Codec_List_Object") then codec_list p data
  else Ok (AUnknown t data).

(** asf.hpp:928-983.  [index] is an [unsigned int]; [index + size - 24] and [size - 24] are
    64-bit.  [None] is the null pointer. *)
Fixpoint Parse (fuel : nat) (p : platform) (buffer : bytes) (offset : N) : res (option asf_object) :=
  match fuel with
  | O => Fuel
  | S k =>
      let max := lenN buffer in
      if max <? u32 (offset + 16) then Ok None
      else
        guid <- slice buffer offset 16 ;;
        let index := u32 (offset + 16) in
        if max <? u32 (index + 8) then Ok None
        else
          size <- ReadULongLong buffer max index ;;
          let index := u32 (index + 8) in
          if max <? subw 64 (u64 (index + size)) 24 then Ok None
          else
            data <- readBuffer buffer index (subw 64 size 24) ;;
            o <- make_object k (Parse k p) p guid data size ;;
            Ok (Some o)
  end.

(** ** Rendering, one method per class *)

(** ["key":"value"], ["key":number] *)
Definition js (key value : bytes) : bytes := q ++ key ++ q ++ B ":" ++ q ++ value ++ q.
Definition jn (key : bytes) (n : N) : bytes := q ++ key ++ q ++ B ":" ++ dec n.
Definition xs (key value : bytes) : bytes := B "<" ++ key ++ B ">" ++ value ++ B "</" ++ key ++ B ">".

(** asf.hpp:841-846 *)
Definition CodecTypeStr (t : N) : bytes :=
  if t =? 1 then B "Video" else if t =? 2 then B "Audio"
  else if t =? 65535 then B "Unknown" else B "Undefined".

Definition codec_json (c : codec_entry) : bytes :=
  B "{" ++ js (B "type") (CodecTypeStr (c_type c)) ++ B "," ++ js (B "name") (c_name c) ++ B "," ++
  js (B "description") (c_desc c) ++ B "," ++ js (B "info") (bin2hex11 (c_info c)) ++ B "}".
Definition codec_xml (c : codec_entry) : bytes :=
  xs (B "codec") (xs (B "type") (CodecTypeStr (c_type c)) ++ xs (B "name") (c_name c) ++
                  xs (B "description") (c_desc c) ++ xs (B "info") (bin2hex11 (c_info c))).

(** asf.hpp:299-306, 329-338, 396-413, 485-500, 561-582, 664-675, 767-783, 879-900 *)
Fixpoint obj_ToJson (o : asf_object) : bytes :=
  B "{" ++ js (B "Type") (obj_type o) ++ B "," ++
  match o with
  | AUnknown _ d => js (B "Data") (bin2hex11 d)
  | AHeader _ n r1 r2 =>
      jn (B "Number") n ++ B "," ++ jn (B "Alignment") r1 ++ B "," ++ jn (B "Architecture") r2
  | AFile _ id fs cr dp pl se pre fl mi ma br =>
      js (B "file_id") (erasenulls (bin2hex11 id)) ++ B "," ++ jn (B "file_size") fs ++ B "," ++
      jn (B "creation") cr ++ B "," ++ jn (B "dp_count") dp ++ B "," ++
      jn (B "play_duration") pl ++ B "," ++ jn (B "send_duration") se ++ B "," ++
      jn (B "preroll") pre ++ B "," ++ jn (B "flags") fl ++ B "," ++
      jn (B "min_dp_size") mi ++ B "," ++ jn (B "max_dp_size") ma ++ B "," ++ jn (B "max_bitrate") br
  | AStream _ st ec t tl el fl re td ed =>
      js (B "stream_type") st ++ B "," ++ js (B "error_correction_type") ec ++ B "," ++
      jn (B "time_offset") t ++ B "," ++ jn (B "type_specific_data_length") tl ++ B "," ++
      jn (B "error_correction_data_length") el ++ B "," ++ jn (B "flags") fl ++ B "," ++
      jn (B "reserved") re ++ B "," ++ js (B "type_specific_data") (bin2hex11 td) ++ B "," ++
      js (B "error_correction_data") (bin2hex11 ed)
  | AExt _ ct cs sz ed ch =>
      js (B "clock_type") ct ++ B "," ++ js (B "clock_size") (dec cs) ++ B "," ++
      js (B "header_extension_data_size") (dec sz) ++ B "," ++
      match ch with
      | [] => js (B "header_extension_data") (bin2hex11 ed)
      | _ => q ++ B "children" ++ q ++ B ": [" ++ join (B ",") (map obj_ToJson ch) ++ B "]"
      end
  | AContent _ t a c d r =>
      js (B "title") t ++ B "," ++ js (B "author") a ++ B "," ++ js (B "copyright") c ++ B "," ++
      js (B "description") d ++ B "," ++ js (B "rating") r
  | AExtContent _ n l =>
      jn (B "content_descriptors_count") n ++ B "," ++
      match l with
      | [] => []
      | _ => q ++ B "attributes" ++ q ++ B ": {" ++
             join (B ",") (map (fun d => js (trim ws_chars (fst d)) (trim ws_chars (snd d))) l) ++ B "}"
      end
  | ACodecs _ id n l =>
      js (B "codec_id") id ++ B "," ++ js (B "codec_entries_count") (dec n) ++ B "," ++
      match l with
      | [] => []
      | _ => q ++ B "codecs" ++ q ++ B ": [" ++ join (B ",") (map codec_json l) ++ B "]"
      end
  end ++ B "}".

(** asf.hpp:307-314, 339-348, 414-431, 501-516, 583-603, 676-688, 784-799, 901-921 *)
Fixpoint obj_ToXml (o : asf_object) : bytes :=
  xs (B "ASFObject") (xs (B "Type") (obj_type o) ++
  match o with
  | AUnknown _ d => xs (B "Data") (bin2hex11 d)
  | AHeader _ n r1 r2 =>
      xs (B "Number") (dec n) ++ xs (B "Alignment") (dec r1) ++ xs (B "Architecture") (dec r2)
  | AFile _ id fs cr dp pl se pre fl mi ma br =>
      xs (B "file_id") (erasenulls (bin2hex11 id)) ++ xs (B "file_size") (dec fs) ++
      xs (B "creation") (dec cr) ++ xs (B "dp_count") (dec dp) ++
      xs (B "play_duration") (dec pl) ++ xs (B "send_duration") (dec se) ++
      xs (B "preroll") (dec pre) ++ xs (B "flags") (dec fl) ++
      xs (B "min_dp_size") (dec mi) ++ xs (B "max_dp_size") (dec ma) ++ xs (B "max_bitrate") (dec br)
  | AStream _ st ec t tl el fl re td ed =>
      xs (B "stream_type") st ++ xs (B "error_correction_type") ec ++
      xs (B "time_offset") (dec t) ++ xs (B "type_specific_data_length") (dec tl) ++
      xs (B "error_correction_data_length") (dec el) ++ xs (B "flags") (dec fl) ++
      xs (B "reserved") (dec re) ++ xs (B "type_specific_data") (bin2hex11 td) ++
      xs (B "error_correction_data") (bin2hex11 ed)
  | AExt _ ct cs sz ed ch =>
      xs (B "clock_type") ct ++ xs (B "clock_size") (dec cs) ++
      xs (B "header_extension_data_size") (dec sz) ++
      match ch with
      | [] => xs (B "header_extension_data") (bin2hex11 ed)
      | _ => xs (B "children") (List.concat (map obj_ToXml ch))
      end
  | AContent _ t a c d r =>
      xs (B "title") t ++ xs (B "author") a ++ xs (B "copyright") c ++
      xs (B "description") d ++ xs (B "rating") r
  | AExtContent _ n l =>
      xs (B "content_descriptors_count") (dec n) ++
      match l with
      | [] => []
      | _ => xs (B "attributes") (List.concat (map (fun d =>
               xs (B "Name") (trim ws_chars (fst d)) ++ xs (B "Value") (trim ws_chars (snd d))) l))
      end
  | ACodecs _ id n l =>
      xs (B "codec_id") id ++ xs (B "codec_entries_count") (dec n) ++
      match l with
      | [] => []
      | _ => xs (B "codecs") (List.concat (map codec_xml l))
      end
  end).

(** asf.hpp:991-1033 *)
Definition asf_json (base : ExtensionInfo) (headers : list asf_object) : bytes :=
  B "{" ++ buildBaseJson base ++
  match headers with
  | [] => []
  | _ => B ", " ++ q ++ B "headers" ++ q ++ B ":[" ++ join (B ",") (map obj_ToJson headers) ++ B "]"
  end ++ B "}".
Definition asf_xml (base : ExtensionInfo) (headers : list asf_object) : bytes :=
  xs (B "item") (buildBaseXml base ++
  match headers with
  | [] => []
  | _ => xs (B "headers") (List.concat (map obj_ToXml headers))
  end).
Definition asf_text (base : ExtensionInfo) : bytes :=
  Extension base ++ [x09] ++ VersionName base ++ [x09] ++ dec (Version base).
Definition asf_csv (base : ExtensionInfo) : bytes :=
  Extension base ++ [x2c] ++ VersionName base ++ [x2c] ++ dec (Version base).
Definition asf_result (base : ExtensionInfo) (headers : list asf_object) : Result :=
  mkResult base (mkExp (asf_json base headers) (asf_xml base headers) (asf_text base) (asf_csv base)).

(** ** Detailer *)

(** [s.rfind(prefix, 0) == 0] *)
Fixpoint starts_with (prefix s : bytes) : bool :=
  match prefix, s with
  | [], _ => true
  | c :: prefix', d :: s' => byte_eqb c d && starts_with prefix' s'
  | _, [] => false
  end.

Definition asf_base : ExtensionInfo := mkExt (B "asf") (B "Advanced Systems Format (ASF)") [] 0 [].
Definition wma_base : ExtensionInfo := mkExt (B "wma") (B "Windows Media Audio") [] 0 [].
Definition wmv_base : ExtensionInfo := mkExt (B "wmv") (B "Windows Media Video") [] 0 [].

(** asf.hpp:1064-1084: the effect of one parsed object on the answer *)
Definition classify (base : ExtensionInfo) (o : asf_object) : ExtensionInfo :=
  match o with
  | ACodecs _ _ _ [c] => if starts_with (B "Windows Media Audio") (c_name c) then wma_base else base
  | ACodecs _ _ _ l =>
      if existsb (fun c => starts_with (B "Windows Media Video") (c_name c)) l then wmv_base else base
  | _ => base
  end.

(** asf.hpp:1058-1089.  The index grows by at least 24 in each round, so the bound given
    below is never what ends the loop. *)
Fixpoint detail_loop (fuel : nat) (parse : N -> res (option asf_object)) (number size i index : N)
         (base : ExtensionInfo) : res (ExtensionInfo * list asf_object) :=
  match fuel with
  | O => Fuel
  | S k =>
      if (i <? number) && (index <? size) then
        o <- parse index ;;
        match o with
        | Some c =>
            r <- detail_loop k parse number size (i + 1) (u32 (index + 24 + lenN (obj_data c)))
                             (classify base c) ;;
            Ok (fst r, c :: snd r)
        | None => Ok (base, [])
        end
      else Ok (base, [])
  end.

(** asf.hpp:1037-1094.  The first object is used as an [asf_header] whatever its type:
    for any other class the member accesses are undefined. *)
Definition asf_Detailer (p : platform) (file : option bytes) (buffer : bytes) : res (list Result) :=
  let data := if lenN buffer =? 512 then readFile file (getFileSize file) else buffer in
  let fuel := S (List.length data) in
  h <- Parse fuel p data 0 ;;
  match h with
  | None => Ok [asf_result asf_base []]
  | Some (AHeader size number r1 r2 as o) =>
      r <- detail_loop fuel (Parse fuel p data) number size 0 30 asf_base ;;
      Ok [asf_result (fst r) (o :: snd r)]
  | Some _ => UB
  end.
