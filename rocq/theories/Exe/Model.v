(** Model of /repo/fileid/exe/Exec.hpp and /repo/fileid/exe/macho.hpp.  Definitions only. *)
From Coq Require Import List NArith ZArith Bool Strings.String.
From Verif Require Import Lib.Res Lib.Bytes Lib.Text Common.Model Magic.Model Exe.Tables.
Import ListNotations.
Local Open Scope N_scope.

(** A [switch] over constants: the first matching row (the rows have distinct keys). *)
Fixpoint lookup {A} (rows : list (N * A)) (k : N) : option A :=
  match rows with
  | [] => None
  | (k', v) :: t => if k =? k' then Some v else lookup t k
  end.

Definition switch (rows : list (N * bytes)) (k : N) : bytes :=
  match lookup rows k with Some v => v | None => [] end.

(** The little-endian field of [n] bytes at [off] of a structure image *)
Definition field (img : bytes) (off n : N) : N := le (takeN n (dropN off img)).

(** ** Exec.hpp *)

(** sizeof(IMAGE_DOS_HEADER), Exec.hpp:79-100; [NewExeAddress] is its last field, at 60 *)
Definition DOS_SIZE : N := 64.
(** sizeof(COFF_FILE_HEADER), Exec.hpp:103-112: Machine at 4, Characteristics at 22 *)
Definition COFF_SIZE : N := 24.
(** sizeof(OPTIONAL_HEADER), Exec.hpp:142-172: 76 bytes of fields; with an 8-byte
    [unsigned long] in the union at offset 24 the structure is padded to a multiple of 8 *)
Definition OPT_SIZE (p : platform) : N := if sizeof_long p =? 8 then 80 else 76.

(** Exec.hpp:174-190 *)
Definition GetSubsystemString (k : N) : bytes := switch subsystem_names k.
(** Exec.hpp:192-219 *)
Definition GetMachineTypeString (k : N) : bytes := switch machine_names k.
(** Exec.hpp:221-228 *)
Definition BuildVectorFromMap (m : list (N * bytes)) (key : N) : list bytes :=
  map snd (filter (fun e => negb (N.land (fst e) key =? 0)) m).
(** Exec.hpp:233-239 *)
Definition BuildVersionString (major minor : N) : bytes := dec major ++ B "." ++ dec minor.

(** Exec.hpp:11-28: the object's public fields (the inherited ones first) *)
Record ExecInfo := mkExec {
  x_base : ExtensionInfo;
  x_MachineType : bytes; x_Subsystem : bytes; x_LinkerVersion : bytes; x_OsVersion : bytes;
  x_ImageVersion : bytes; x_SubsystemVersion : bytes; x_Win32Version : N;
  x_Characteristics : list bytes; x_DllCharacteristics : list bytes }.

Definition exec_base (ext name : bytes) : ExtensionInfo := mkExt ext [] [] 0 name.
(** Exec.hpp:24-28 *)
Definition exec_new : ExecInfo :=
  mkExec (exec_base (B "exe") (B "Executable")) [] [] [] [] [] [] 0 [] [].

(** Exec.hpp:264-272: the part filled in from the COFF header image *)
Definition with_coff (coff : bytes) (i : ExecInfo) : ExecInfo :=
  let ch := field coff 22 2 in
  let b0 := x_base i in
  let b1 := if negb (N.land ch 8192 =? 0)
            then exec_base (B "dll") (B "Dynamic Link Library") else b0 in
  let b2 := if negb (N.land ch 4096 =? 0)
            then exec_base (B "sys") (B "Kernal Mode Executable") else b1 in
  mkExec b2 (GetMachineTypeString (field coff 4 2)) (x_Subsystem i) (x_LinkerVersion i)
         (x_OsVersion i) (x_ImageVersion i) (x_SubsystemVersion i) (x_Win32Version i)
         (BuildVectorFromMap CharacteristicsMap ch) (x_DllCharacteristics i).

(** Exec.hpp:280-286: the part filled in from the optional header image *)
Definition with_opt (opt : bytes) (i : ExecInfo) : ExecInfo :=
  mkExec (x_base i) (x_MachineType i)
         (GetSubsystemString (field opt 68 4))
         (BuildVersionString (field opt 2 1) (field opt 3 1))
         (BuildVersionString (field opt 40 2) (field opt 42 2))
         (BuildVersionString (field opt 44 2) (field opt 46 2))
         (BuildVersionString (field opt 48 2) (field opt 50 2))
         (field opt 52 4)
         (x_Characteristics i)
         (BuildVectorFromMap DllCharacteristicsMap (field opt 72 4)).

(** Exec.hpp:241-296.  The [sizeof] terms are 64-bit, so the two bounds tests do not wrap;
    [totalSizeNeeded] is an [unsigned int]. *)
Definition exec_detail (p : platform) (file : option bytes) : res ExecInfo :=
  let buf1 := readFile file 2048 in
  dos <- slice buf1 0 DOS_SIZE ;;
  let pe := field dos 60 4 in
  let total := u32 (pe + COFF_SIZE + OPT_SIZE p) in
  let buf2 := if lenN buf1 <? total then readFile file total else buf1 in
  if pe + COFF_SIZE <? lenN buf2 then
    coff <- slice buf2 pe COFF_SIZE ;;
    let i := with_coff coff exec_new in
    if pe + COFF_SIZE + OPT_SIZE p <? lenN buf2 then
      opt <- slice buf2 (pe + COFF_SIZE) (OPT_SIZE p) ;;
      Ok (with_opt opt i)
    else Ok i
  else Ok exec_new.

(** The methods [ToJson], [ToXml], [ToText], [ToCsv] of Exec.hpp:29-76 are not [const] and so
    do not override the ones the output routine calls: the base renderings are printed. *)
Definition exec_result (i : ExecInfo) : Result := plain_result (x_base i).
Definition exec_Detailer (p : platform) (file : option bytes) : res (list Result) :=
  i <- exec_detail p file ;; Ok [exec_result i].

(** ** macho.hpp *)

(** macho.hpp:76-103 *)
Definition cpuType2String (k : N) : bytes := switch cputype_names k.
(** macho.hpp:104-281 *)
Definition cpuSubType2String (t k : N) : bytes :=
  let ans := match lookup cpusubtype_names t with
             | Some rows => match lookup rows k with Some v => v | None => B "UNKNOWN" end
             | None => B "UNKNOWN"
             end in
  if bytes_eqb ans (B "UNKNOWN") then ans ++ B " (" ++ int_to_hex 4 k ++ B ")" else ans.

(** macho.hpp:10-23.  [FileType] and [Flags] are always empty (macho.hpp:282-292). *)
Record MachOInfo := mkMachO {
  m_base : ExtensionInfo; m_CpuType : bytes; m_CpuSubType : bytes; m_FileType : bytes;
  m_NumberLoadCommands : N; m_SizeLoadCommands : N; m_Flags : bytes }.

(** macho.hpp:294-315; mach_header is seven 32-bit fields *)
Definition macho_detail (file : option bytes) : res MachOInfo :=
  let buf2 := readFile file 2048 in
  h <- slice buf2 0 28 ;;
  let magic := field h 0 4 in
  Ok (mkMachO (mkExt (B "o") [] [] (u16 magic) (int_to_hex 4 magic))
              (cpuType2String (field h 4 4))
              (cpuSubType2String (field h 4 4) (field h 8 4))
              [] (field h 16 4) (field h 20 4) []).

(** A string member of macho.hpp:24-40 *)
Definition macho_member (key v : bytes) : bytes :=
  B ", " ++ q ++ key ++ q ++ B " : " ++ q ++ v ++ q.
Definition macho_opt_member (key v : bytes) : bytes :=
  if nonempty v then macho_member key v else [].
(** macho.hpp:24-40 *)
Definition macho_ToJson (i : MachOInfo) : bytes :=
  B "{" ++ q ++ B "extension" ++ q ++ B " : " ++ q ++ Extension (m_base i) ++ q ++
  macho_member (B "name") (VersionName (m_base i)) ++
  macho_opt_member (B "CpuType") (m_CpuType i) ++
  macho_opt_member (B "CpuSubType") (m_CpuSubType i) ++
  macho_opt_member (B "FileType") (m_FileType i) ++
  macho_member (B "NumberLoadCommands") (dec (m_NumberLoadCommands i)) ++
  macho_member (B "SizeLoadCommands") (dec (m_SizeLoadCommands i)) ++
  macho_opt_member (B "Flags") (m_Flags i) ++ B "}".

Definition macho_element (key v : bytes) : bytes :=
  B "<" ++ key ++ B ">" ++ v ++ B "</" ++ key ++ B ">".
Definition macho_opt_element (key v : bytes) : bytes :=
  if nonempty v then macho_element key v else [].
(** macho.hpp:41-53 *)
Definition macho_ToXml (i : MachOInfo) : bytes :=
  B "<item>" ++ buildBaseXml (m_base i) ++
  macho_opt_element (B "CpuType") (m_CpuType i) ++
  macho_opt_element (B "CpuSubType") (m_CpuSubType i) ++
  macho_opt_element (B "FileType") (m_FileType i) ++
  macho_element (B "NumberLoadCommands") (dec (m_NumberLoadCommands i)) ++
  macho_element (B "SizeLoadCommands") (dec (m_SizeLoadCommands i)) ++
  macho_opt_element (B "Flags") (m_Flags i) ++ B "</item>".
(** macho.hpp:54-63 *)
Definition macho_ToText (i : MachOInfo) : bytes :=
  Extension (m_base i) ++ [x09] ++ VersionName (m_base i).
Definition macho_ToCsv (i : MachOInfo) : bytes :=
  Extension (m_base i) ++ [x2c] ++ VersionName (m_base i).

Definition macho_result (i : MachOInfo) : Result :=
  mkResult (m_base i) (mkExp (macho_ToJson i) (macho_ToXml i) (macho_ToText i) (macho_ToCsv i)).
Definition macho_Detailer (file : option bytes) : res (list Result) :=
  i <- macho_detail file ;; Ok [macho_result i].
