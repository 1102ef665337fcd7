(** Reading a VBA project: fileid/oless/vbahelper.hpp:269-476. *)
From Coq Require Import List NArith ZArith Bool Strings.String.
From Verif Require Import Lib.Res Lib.Bytes Lib.Text Common.Model Ole.Model Vba.Model.
Import ListNotations.
Local Open Scope N_scope.

(** vbahelper.hpp:114-123 *)
Record module := mkModule {
  md_Name : bytes; md_StreamName : bytes; md_StreamNamePole : bytes; md_StreamNameW : list N;
  md_Offset : N; md_Code : bytes; md_isPrivate : bool; md_isReadOnly : bool }.
(** vbahelper.hpp:126-138: the members that are read from the project *)
Record project := mkProject {
  pr_Version : N; pr_Name : bytes; pr_References : list bytes; pr_Modules : list module;
  pr_Major : N; pr_Minor : N }.

(** A buffer: the length that is passed on, and the bytes that can be read behind the pointer.
    The null pointer is [(0, [])]. *)
Definition buffer := (N * bytes)%type.

(** The bytes before the first one that was never written.  Decompression reads the bytes one
    after the other, so it cannot reach a later one without reading that one. *)
Fixpoint written (m : mem) : bytes :=
  match m with
  | Some b :: r => b :: written r
  | _ => []
  end.

(** vbahelper.hpp:269-282.  [new] never returns null, and is taken to succeed. *)
Definition FetchStream (pl : platform) (s : storage) (name : list N) (offset : N) : res buffer :=
  e <- open_stream pl s name ;;
  match e with
  | None => Ok (0, [])
  | Some e =>
      let len := u32 (subw 64 (d_size e) offset) in
      blocks <- stream_blocks s e ;;
      '(data, n) <- stream_read s e blocks offset (blank len) len ;;
      Ok (u32 n, written data)
  end.

(** vbahelper.hpp:284-297.  The decompressed bytes are followed by the zeros of their buffer.
    [delete] of an array is not modelled. *)
Definition Decompressed (len : N) (buf : bytes) : res buffer :=
  d <- Decompress len buf ;;
  match d with
  | None => Ok (0, [])
  | Some d => Ok (lenN d, d ++ repeatN x00 (u32 (len * 1024) - lenN d))
  end.
Definition FetchAndDecompress (pl : platform) (s : storage) (name : list N) (offset : N) : res buffer :=
  '(len, buf) <- FetchStream pl s name offset ;; Decompressed len buf.

(** vbahelper.hpp:299-304: the text and the index behind it *)
Definition ReadStr (b : buffer) (index : N) : res (N * bytes) :=
  let '(len, mem) := b in
  n <- ReadUInt mem len index true ;;
  s <- Common.Model.ReadString mem len (u32 (index + 4)) n ;;
  Ok (u32 (index + n + 4), s).

(** vbahelper.hpp:315-317: every second byte from [i] below the limit *)
Fixpoint every_second (s : bytes) : bytes :=
  match s with
  | a :: _ :: r => a :: every_second r
  | [a] => [a]
  | [] => []
  end.
(** vbahelper.hpp:307-324.  The wide characters are read where they lie. *)
Definition ReadStrW (pl : platform) (b : buffer) (index : N) : res (N * bytes * list N) :=
  let '(len, mem) := b in
  n <- ReadUInt mem len index true ;;
  if len <? u32 (index + 4 + n) then Throw OtherExn
  else
    let from := u32 (index + 4) in
    s <- slice mem from (u32 (index + 4 + n) - from) ;;
    w <- slice mem from (n / sizeof_wchar pl * sizeof_wchar pl) ;;
    Ok (u32 (index + n + 4), every_second s, to_wchars pl w).

(** vbahelper.hpp:326-331 *)
Definition GetCode (pl : platform) (s : storage) (name : list N) (offset : N) : res bytes :=
  '(len, mem) <- FetchAndDecompress pl s name offset ;;
  Common.Model.ReadString mem len 0 len.

(** vbahelper.hpp:373-411: the references; [fuel] bounds the rounds *)
Definition skip (index n : N) : N := u32 (index + n).
Definition reference_tail (b : buffer) (index recordType : N) : res N :=
  if recordType =? 51 then '(index, _) <- ReadStr b index ;; Ok index
  else if recordType =? 47 then
    '(index, _) <- ReadStr b (skip index 4) ;;
    let index := skip index 6 in
    '(index, _) <- ReadStr b (skip index 2) ;;
    '(index, _) <- ReadStr b (skip index 2) ;;
    let index := skip index 6 in
    '(index, _) <- ReadStr b (skip index 2) ;;
    Ok (skip index 26)
  else if recordType =? 13 then
    '(index, _) <- ReadStr b (skip index 4) ;;
    Ok (skip index 6)
  else if recordType =? 14 then
    '(index, _) <- ReadStr b (skip index 4) ;;
    '(index, _) <- ReadStr b index ;;
    Ok (skip index 6)
  else Ok index.
Fixpoint references (fuel : nat) (b : buffer) (index : N) (acc : list bytes) : res (N * list bytes) :=
  match fuel with
  | O => Fuel
  | S k =>
      id <- ReadUShort (snd b) (fst b) index false ;;
      if id =? 22 then
        '(index, name) <- ReadStr b (skip index 2) ;;
        '(index, _) <- ReadStr b (skip index 2) ;;
        recordType <- ReadUShort (snd b) (fst b) (skip index 2) false ;;
        index <- reference_tail b (skip index 2) recordType ;;
        references k b index (acc ++ [name])
      else Ok (index, acc)
  end.

(** vbahelper.hpp:426-467: one record of a module; the index is behind its identifier *)
Definition module_record (pl : platform) (b : buffer) (id index : N) (m : module) : res (N * module) :=
  let '(mkModule name sn snp snw off code priv ro) := m in
  if id =? 25 then '(index, s) <- ReadStr b index ;; Ok (index, mkModule s sn snp snw off code priv ro)
  else if id =? 71 then '(index, _) <- ReadStr b index ;; Ok (index, m)
  else if id =? 26 then
    '(index, s) <- ReadStr b index ;;
    '(index, t, w) <- ReadStrW pl b (skip index 2) ;;
    Ok (index, mkModule name s t w off code priv ro)
  else if id =? 28 then
    '(index, _) <- ReadStr b index ;;
    '(index, _) <- ReadStr b (skip index 2) ;;
    Ok (index, m)
  else if id =? 49 then
    o <- ReadUInt (snd b) (fst b) (skip index 4) true ;;
    Ok (skip (skip index 4) 4, mkModule name sn snp snw o code priv ro)
  else if id =? 30 then Ok (skip index 8, m)
  else if id =? 44 then Ok (skip index 6, m)
  else if (id =? 33) || (id =? 34) then Ok (skip index 4, m)
  else if id =? 37 then Ok (skip index 4, mkModule name sn snp snw off code priv true)
  else if id =? 40 then Ok (skip index 4, mkModule name sn snp snw off code true ro)
  else Ok (index, m).
(** vbahelper.hpp:423-468: the records of a module *)
Fixpoint module_records (fuel : nat) (pl : platform) (b : buffer) (id index : N) (m : module) : res (N * module) :=
  match fuel with
  | O => Fuel
  | S k =>
      if negb (id =? 43) && (index <? fst b) then
        id <- ReadUShort (snd b) (fst b) index false ;;
        '(index, m) <- module_record pl b id (skip index 2) m ;;
        module_records k pl b id index m
      else Ok (index, m)
  end.
Definition new_module : module := mkModule [] [] [] [] 0 [] false false.
(** vbahelper.hpp:413-475: the modules; [code] fetches the source of a stream *)
Fixpoint modules (fuel : nat) (pl : platform) (code : list N -> N -> res bytes) (b : buffer) (index : N) (acc : list module)
  : res (list module) :=
  match fuel with
  | O => Fuel
  | S k =>
      if index <? fst b then
        id <- ReadUShort (snd b) (fst b) index false ;;
        '(index, m) <- module_records (S (N.to_nat (fst b))) pl b id index new_module ;;
        let index := skip index 4 in
        match md_StreamName m with
        | [] => modules k pl code b index acc
        | _ =>
            c <- code (md_StreamNameW m) (md_Offset m) ;;
            modules k pl code b index
              (acc ++ [mkModule (md_Name m) (md_StreamName m) (md_StreamNamePole m) (md_StreamNameW m)
                                (md_Offset m) c (md_isPrivate m) (md_isReadOnly m)])
        end
      else Ok acc
  end.

(** vbahelper.hpp:351-475: everything that is read from the decompressed [dir] stream.
    ProjectVersion (vbahelper.hpp:85-90) is not packed: VersionMajor is at 8, VersionMinor at 12. *)
Definition project_info (pl : platform) (code : list N -> N -> res bytes) (version : N) (b : buffer) : res project :=
  '(index, name) <- ReadStr b 40 ;;
  '(index, _) <- ReadStr b (skip index 2) ;;
  '(index, _) <- ReadStr b (skip index 2) ;;
  '(index, _) <- ReadStr b (skip index 2) ;;
  '(index, _) <- ReadStr b (skip index 2) ;;
  let index := skip (skip index 10) 10 in
  major <- slice (snd b) (index + 8) 4 ;;
  minor <- slice (snd b) (index + 12) 2 ;;
  let index := skip index 12 in
  '(index, _) <- ReadStr b (skip index 2) ;;
  '(index, _) <- ReadStr b (skip index 2) ;;
  '(index, refs) <- references (S (N.to_nat (fst b))) b index [] ;;
  mods <- modules (S (N.to_nat (fst b))) pl code b (skip index 16) [] ;;
  Ok (mkProject version name refs mods (le major) (le minor)).

(** OleCommon.hpp:30-41 on the eight bytes of VBAProjectStreamHeader (vbahelper.hpp:28-33): the
    bytes that were not read have no value *)
Definition header_version (pl : platform) (s : storage) (name : list N) : res N :=
  e <- open_stream pl s name ;;
  match e with
  | None => UB
  | Some e =>
      blocks <- stream_blocks s e ;;
      '(data, _) <- stream_read s e blocks 0 (blank 8) 8 ;;
      readU16 data 2
  end.

Definition wide (s : bytes) : list N := map b2n s.
(** vbahelper.hpp:337-476 *)
Definition Analyze (pl : platform) (fullname : list N) (s : storage) : res project :=
  version <- header_version pl s (fullname ++ wide (B "/VBA/_VBA_PROJECT")) ;;
  b <- FetchAndDecompress pl s (fullname ++ wide (B "/VBA/dir")) 0 ;;
  project_info pl (fun name off => GetCode pl s (fullname ++ wide (B "/VBA/") ++ name) off) version b.
