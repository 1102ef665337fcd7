(** Model of /repo/fileid/document/excel: reading a workbook stream and writing the result.
    Definitions only; paths are relative to /repo/fileid/document/excel. *)
From Coq Require Import List NArith ZArith Bool Strings.String.
From Verif Require Import Lib.Res Lib.Bytes Lib.Text Common.Model Excel.Model Excel.Records.
Import ListNotations.
Local Open Scope N_scope.

(** Sheet.hpp:13-23, without the records, which are kept in one list *)
Record sheet := mkSheet { sh_name : bytes; sh_type : N; sh_visibility : N; sh_offset : N }.

(** ParseEngine.hpp:9-26 and the locals of lines 89-90.  [s_list] is [masterList], latest first,
    each record with the sheet that holds it ([None]: the global substream); its head is
    [lastRecord].  [s_vers] is the version once a first BOF has set it: the local [version],
    0 until then, and the members [Version], [VersionName] and [SubType], of which the first
    has no value until then.  [s_cap] is the capacity of the vector of sheets. *)
Record state := mkState {
  s_list : list (rec * option N); s_sheets : list sheet; s_cap : N; s_lookup : list (N * N);
  s_current : option N; s_next : N; s_index : N; s_vers : option N }.
Definition version_of (s : state) : N := match s_vers s with Some v => v | None => 0 end.
Definition state0 : state := mkState [] [] 0 [] None 0 0 None.

(** The capacity after [push_back] to a full vector: libstdc++ doubles it, the Microsoft library
    adds a half. *)
Definition grow (p : platform) (size : N) : N :=
  N.max (size + 1) (if sizeof_wchar p =? 2 then size + size / 2 else 2 * size).

(** ParseEngine.hpp:147-160: the new sheet and the lookup table *)
Definition new_sheet (r : rec) (s : state) : res (sheet * list (N * N)) :=
  if version_of s =? 1536 then
    match r_body r with
    | BoundSheet8 n =>
        off <- load (r_data r) 0 4 ;; v <- rd (r_data r) 4 ;; t <- rd (r_data r) 5 ;;
        Ok (mkSheet n t (bits v 0 2) off, (off, lenN (s_sheets s)) :: s_lookup s)
    | _ => UB
    end
  else if version_of s =? 1280 then
    match r_body r with
    | BoundSheet5 n => Ok (mkSheet n 0 0 0, s_lookup s)
    | _ => UB
    end
  else Ok (mkSheet [] 0 0 0, s_lookup s).
(** ParseEngine.hpp:145-164.  [push_back] to a full vector moves the sheets; [currentSheet] would
    then dangle, and lines 172-174 use it. *)
Definition bound_sheet (p : platform) (r : rec) (s : state) : res state :=
  x <- new_sheet r s ;;
  let full := lenN (s_sheets s) =? s_cap s in
  if full && match s_current s with Some _ => true | None => false end then UB
  else Ok (mkState (s_list s) (s_sheets s ++ [fst x]) (if full then grow p (s_cap s) else s_cap s)
             (snd x) (s_current s) (s_next s) (s_index s) (s_vers s)).

(** The sheet that was stored last for an offset *)
Fixpoint look (k : N) (l : list (N * N)) : option N :=
  match l with
  | [] => None
  | (a, b) :: t => if a =? k then Some b else look k t
  end.

(** ParseEngine.hpp:107-144 *)
Definition substream (r : rec) (s : state) : res state :=
  let set c n v := mkState (s_list s) (s_sheets s) (s_cap s) (s_lookup s) c n (s_index s) v in
  if s_index s =? 4 then
    v <- load (r_data r) 0 2 ;; Ok (set (s_current s) (s_next s) (Some v))
  else if version_of s =? 1536 then
    match look (subw 32 (s_index s) 4) (s_lookup s) with
    | Some i => Ok (set (Some i) (s_next s) (s_vers s))
    | None => Ok s
    end
  else if version_of s =? 1280 then
    let n := match s_current s with None => 0 | Some _ => u32 (s_next s + 1) end in
    Ok (set (if n <? lenN (s_sheets s) then Some n else s_current s) n (s_vers s))
  else Ok (set None (s_next s) (s_vers s)).

(** ParseEngine.hpp:104-181: a record that could be parsed.  A FilePass record moves the index
    beyond the end. *)
Definition add (p : platform) (max : N) (r : rec) (s : state) : res state :=
  s <- (if bof_type (r_type r) then substream r s
        else if r_type r =? 0x85 then bound_sheet p r s
        else if r_type r =? 0x2F then
          Ok (mkState (s_list s) (s_sheets s) (s_cap s) (s_lookup s) (s_current s) (s_next s)
                (u32 (s_index s + max)) (s_vers s))
        else Ok s) ;;
  Ok (mkState ((r, s_current s) :: s_list s) (s_sheets s) (s_cap s) (s_lookup s) (s_current s) (s_next s)
        (s_index s) (s_vers s)).

(** The effect of a Continue record on the records before it *)
Definition continued (t : N) (d : bytes) (s : state) : res state :=
  if (version_of s =? 1536) && (t =? 0x3C) then
    l <- continue_prev (lenN d) (map fst (s_list s)) ;;
    Ok (mkState (combine l (map snd (s_list s))) (s_sheets s) (s_cap s) (s_lookup s) (s_current s) (s_next s)
          (s_index s) (s_vers s))
  else Ok s.

Definition at_index (i : N) (s : state) : state :=
  mkState (s_list s) (s_sheets s) (s_cap s) (s_lookup s) (s_current s) (s_next s) i (s_vers s).

(** ParseEngine.hpp:103-185: a record of type [t] whose data [d] are at the index, [n] being the
    length in its header *)
Definition process (p : platform) (max t n : N) (d : bytes) (s : state) : res state :=
  s <- continued t d s ;;
  r <- ParseRecord p (map fst (s_list s)) (version_of s) t d ;;
  s <- match r with Some r => add p max r s | None => Ok s end ;;
  Ok (at_index (u32 (s_index s + n)) s).

(** ParseEngine.hpp:94-102: one turn of the loop *)
Definition turn (p : platform) (stream : bytes) (s : state) : res state :=
  let max := lenN stream in
  t <- ReadUShort stream max (s_index s) false ;;
  n <- ReadUShort stream max (u32 (s_index s + 2)) false ;;
  let i := u32 (s_index s + 4) in
  d <- (if u32 (i + n) <? max then slice stream i n else Ok []) ;;
  process p max t n d (at_index i s).

(** The state is kept when an exception ends the loop. *)
Inductive outcome := Done (s : state) | Threw (e : exn) (s : state) | Undefined | Endless.

(** ParseEngine.hpp:82-187.  [index + 4] wraps. *)
Fixpoint loop (p : platform) (stream : bytes) (fuel : nat) (s : state) : outcome :=
  match fuel with
  | O => Endless
  | S k =>
      if u32 (s_index s + 4) <? lenN stream then
        match turn p stream s with
        | Ok s => loop p stream k s
        | Throw e => Threw e s
        | UB => Undefined
        | Fuel => Endless
        end
      else Done s
  end.
Definition ParseStream (p : platform) (stream : bytes) : outcome :=
  loop p stream (S (List.length stream)) state0.

(** ** The result *)
Record excel_info := mkExcel {
  x_ext : ExtensionInfo; x_list : list (rec * option N); x_sheets : list sheet; x_error : bytes }.

(** ExcelExtensionInfo.hpp:24-27 and 74-94.  [what e] is the text of an exception.  Reading
    [Version] before it is set is undefined. *)
Definition Detailer (p : platform) (what : exn -> bytes) (stream : bytes) : res excel_info :=
  let finish s err :=
    match s_vers s with
    | Some v =>
        Ok (mkExcel (mkExt (B "xls") (B "Microsoft Office Excel Workbook") (GetVersion_Excel v) v (GetVersion_Excel v))
              (rev (s_list s)) (s_sheets s) err)
    | None => UB
    end in
  match ParseStream p stream with
  | Done s => finish s []
  | Threw e s => finish s (what e)
  | Undefined => UB
  | Endless => Fuel
  end.

(** The records of the global substream or of a sheet *)
Definition records_of (x : excel_info) (home : option N) : list rec :=
  map fst (filter (fun e => match snd e, home with
                            | None, None => true
                            | Some a, Some b => a =? b
                            | _, _ => false
                            end) (x_list x)).
(** SubStream.hpp:21-41 *)
Definition substream_json (p : platform) (l : list rec) : res bytes :=
  t <- mapM (record_json p) l ;; Ok (key "Records" ++ B "[" ++ join (B ",") t ++ B "]").
Definition substream_xml (p : platform) (l : list rec) : res bytes :=
  t <- mapM (record_xml p) l ;; Ok (elem "Records" (List.concat t)).
(** Sheet.hpp:29-57 *)
Definition sheet_json (p : platform) (x : excel_info) (i : N) (s : sheet) : res bytes :=
  t <- match records_of x (Some i) with
       | [] => Ok []
       | l => j <- substream_json p l ;; Ok (B "," ++ j)
       end ;;
  Ok (B "{" ++ key "Name" ++ quoted (JsonEscape (sh_name s)) ++ B "," ++
      key "Type" ++ quoted (GetSheetTypeStr (sh_type s)) ++ B "," ++
      key "Visiblity" ++ quoted (GetVisibilityStr (sh_visibility s)) ++ B "," ++
      key "Offset" ++ dec (sh_offset s) ++ t ++ B "}").
Definition sheet_xml (p : platform) (x : excel_info) (i : N) (s : sheet) : res bytes :=
  t <- match records_of x (Some i) with
       | [] => Ok []
       | l => substream_xml p l
       end ;;
  Ok (elem "Sheet"
        (elem "Name" (XmlEscape (sh_name s)) ++ elem "Type" (GetSheetTypeStr (sh_type s)) ++
         elem "Visiblity" (GetVisibilityStr (sh_visibility s)) ++ elem "Offset" (dec (sh_offset s)) ++ t)).
Fixpoint numbered {A} (i : N) (l : list A) : list (N * A) :=
  match l with
  | [] => []
  | a :: t => (i, a) :: numbered (i + 1) t
  end.
(** ExcelExtensionInfo.hpp:33-47: what follows the members of the base class; [global] is never null
    here. *)
Definition contents_json (p : platform) (x : excel_info) : res bytes :=
  g <- substream_json p (records_of x None) ;;
  s <- mapM (fun e => sheet_json p x (fst e) (snd e)) (numbered 0 (x_sheets x)) ;;
  Ok (B ", " ++ q ++ B "globals" ++ q ++ B ": { " ++ g ++ B "}" ++
      match s with [] => [] | _ => B ", " ++ q ++ B "sheets" ++ q ++ B ": [" ++ join (B ",") s ++ B "]" end ++
      (if nonempty (x_error x) then B ", " ++ q ++ B "ERROR" ++ q ++ B ": " ++ quoted (x_error x) else [])).
(** ExcelExtensionInfo.hpp:54-69 *)
Definition contents_xml (p : platform) (x : excel_info) : res bytes :=
  g <- substream_xml p (records_of x None) ;;
  s <- mapM (fun e => sheet_xml p x (fst e) (snd e)) (numbered 0 (x_sheets x)) ;;
  Ok (elem "globals" g ++
      match s with [] => [] | _ => elem "sheets" (List.concat s) end ++
      (if nonempty (x_error x) then elem "ERROR" (x_error x) else [])).
(** ExcelExtensionInfo.hpp:29-71 for a workbook without paths and properties *)
Definition excel_json (p : platform) (x : excel_info) : res bytes :=
  r <- contents_json p x ;; Ok (B "{" ++ buildBaseJson (x_ext x) ++ r ++ B "}").
Definition excel_xml (p : platform) (x : excel_info) : res bytes :=
  r <- contents_xml p x ;; Ok (B "<item>" ++ buildBaseXml (x_ext x) ++ r ++ B "</item>").
