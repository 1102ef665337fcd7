(** Model of the detail functions for the main stream of a document:
    /repo/fileid/document/word/word.hpp, visio/vsd.hpp, pubisher/pub.hpp, powerpoint/ppt.hpp and
    msi/msi.hpp.  Definitions only.  Structures are laid out as by the compilers for the two
    platforms: naturally aligned, [unsigned long] of [sizeof_long] bytes. *)
From Coq Require Import List NArith ZArith Bool Strings.String.
From Verif Require Import Lib.Res Lib.Bytes Lib.Text Common.Model Ole.Model Exe.Model.
Import ListNotations.
Local Open Scope N_scope.

(** An unsigned field of [n] bytes through a pointer into the stream *)
Definition field (s : bytes) (off n : N) : res N := b <- slice s off n ;; Ok (le b).

(** An assignment of the two members that the detail functions set *)
Definition set_version (e : ExtensionInfo) (v : N) (name : bytes) : ExtensionInfo :=
  mkExt (Extension e) (Name e) (SubType e) v name.

(** ** Word *)

(** word.hpp:11-44: [Fib] has 154 bytes, none of them padding: [nFib] is at 2, [cbRgFcLcb] at 152.
    word.hpp:47-75; the conversion of -1 to [unsigned short] *)
Definition GetnFib (s : bytes) : res N :=
  if lenN s <? 154 then Ok 65535
  else
    nFib <- field s 2 2 ;;
    cb <- field s 152 2 ;;
    if 255 <? cb then Ok nFib
    else
      let index := 154 + cb * 8 in
      if lenN s <? index + 4 then Ok nFib
      else
        csw <- field s index 2 ;;
        if csw =? 0 then Ok nFib else field s (index + 2) 2.
(** word.hpp:79-92 *)
Definition word_names : list (N * bytes) :=
  [(314, B "Word2005"); (274, B "Word2005_Compat2003"); (268, B "Word2003"); (257, B "Word2002");
   (217, B "Word2000"); (193, B "Word97"); (104, B "Word95_Or_Word6"); (105, B "Word95Beta");
   (101, B "WinWord6.0"); (45, B "WinWord2.0"); (33, B "WinWord1.0")].
Definition named (t : list (N * bytes)) (v : N) : bytes :=
  match lookup t v with Some n => n | None => B "Unknown" end.
(** word.hpp:76-94 *)
Definition GetVersion_Word (v : N) : bytes := named word_names v.
(** word.hpp:95-98 *)
Definition word_Detailer (e : ExtensionInfo) (s : bytes) : res ExtensionInfo :=
  v <- GetnFib s ;; Ok (set_version e v (GetVersion_Word v)).

(** ** Visio *)

(** vsd.hpp:9-25: [major] is behind 24 characters and [minor] *)
Definition GetVisoVersion (s : bytes) : res N := field s 26 2.
(** vsd.hpp:29-39 *)
Definition visio_names : list (N * bytes) :=
  [(11, B "Visio 2003 or greater"); (10, B "Visio 2002"); (6, B "Visio 2000"); (5, B "Visio 5");
   (4, B "Visio 4"); (3, B "Visio 3"); (2, B "Visio 2"); (1, B "Visio 1")].
Definition GetVersion_Visio (v : N) : bytes := named visio_names v.
(** vsd.hpp:43-46 *)
Definition visio_Detailer (e : ExtensionInfo) (s : bytes) : res ExtensionInfo :=
  v <- GetVisoVersion s ;; Ok (set_version e v (GetVersion_Visio v)).

(** ** Publisher *)

(** pub.hpp:9-16: four [unsigned short], an [unsigned long], an [unsigned short] *)
Definition pub_version2 (pl : platform) : N := 8 + sizeof_long pl.
(** pub.hpp:18-33 *)
Definition GetPubVersion (pl : platform) (s : bytes) : res N :=
  v <- field s 4 2 ;;
  if v =? 300 then field s (pub_version2 pl) 2 else Ok v.
(** pub.hpp:37-44 *)
Definition publisher_names : list (N * bytes) :=
  [(125, B "Publisher 3"); (136, B "Publisher 4"); (616, B "Publisher 5"); (717, B "Publisher 6");
   (1000, B "Publisher 10")].
Definition GetVersion_Publisher (v : N) : bytes := named publisher_names v.
(** pub.hpp:48-51 *)
Definition publisher_Detailer (pl : platform) (e : ExtensionInfo) (s : bytes) : res ExtensionInfo :=
  v <- GetPubVersion pl s ;; Ok (set_version e v (GetVersion_Publisher v)).

(** ** PowerPoint *)

(** ppt.hpp:11-16: three bit-fields in four bytes, then [recLen] aligned to its size *)
Definition rh_size (pl : platform) : N := 2 * sizeof_long pl.
(** ppt.hpp:44-54: behind the header [size] and [headerToken] *)
Definition cua_offset (pl : platform) : N := rh_size pl + 2 * sizeof_long pl.
Definition cua_size (pl : platform) : N := rh_size pl + 3 * sizeof_long pl + 8.
(** ppt.hpp:55-67: behind the header [lastSlideIdRef]; the four bytes of [version] and the two
    versions are padded to the size of the next member, and so are the last four bytes *)
Definition uea_version (pl : platform) : N := rh_size pl + sizeof_long pl.
Definition uea_size (pl : platform) : N := rh_size pl + 7 * sizeof_long pl.

(** ppt.hpp:73-97.  [current] is the stream [/Current User].  The offset is converted to
    [unsigned int], and the sum is one of [size_t]. *)
Definition PptVersion (pl : platform) (current s : bytes) : res N :=
  if lenN current <? cua_size pl then Ok 65535
  else
    o <- field current (cua_offset pl) (sizeof_long pl) ;;
    let index := u32 o in
    if lenN s <? index + uea_size pl then Ok 65535
    else field s (index + uea_version pl) 2.
(** ppt.hpp:69-71: no sum or difference of the calls leaves the range of the type *)
Definition withinCheck (num target range : N) : bool := (target - range <=? num) && (num <=? target + range).
(** ppt.hpp:102-181: the tests in their order *)
Definition ppt_builds : list (N * bytes) :=
  [(4569, B "Office 2013 SP1"); (4569, B "Office 2013 SP1"); (4420, B "Office 2013 RTM");
   (4128, B "Office 2013 Preview"); (7015, B "Office 2010 SP2"); (6029, B "Office 2010 SP1");
   (4763, B "Office 2010 RTM"); (6425, B "Office 2007 SP2"); (6211, B "Office 2007 SP1");
   (4518, B "Office 2007 RTM"); (8173, B "Office 2003 SP3"); (7969, B "Office 2003 SP2");
   (6361, B "Office 2003 SP1"); (5529, B "Office 2003 RTM"); (6501, B "Office XP SP3");
   (4205, B "Office XP SP2"); (3506, B "Office XP SP1"); (2623, B "Office XP RTM");
   (6620, B "Office 2000 SP3"); (4527, B "Office 2000 SP2"); (3821, B "Office 2000 SP1");
   (2716, B "Office 2000 RTM"); (3516, B "Office 97 RTM"); (4208, B "Office 97 SR1");
   (5507, B "Office 97 SR2")].
Fixpoint first_within (t : list (N * bytes)) (v : N) : bytes :=
  match t with
  | [] => B "Unknown"
  | (target, n) :: r => if withinCheck v target 10 then n else first_within r v
  end.
(** ppt.hpp:99-183 *)
Definition GetVersion_Powerpoint (v : N) : bytes :=
  if v =? 0 then B "Non-Office" else first_within ppt_builds v.
(** ppt.hpp:184-187 *)
Definition powerpoint_Detailer (pl : platform) (e : ExtensionInfo) (current s : bytes) : res ExtensionInfo :=
  v <- PptVersion pl current s ;; Ok (set_version e v (GetVersion_Powerpoint v)).

(** ** Windows Installer *)

Fixpoint starts_with (p s : bytes) : bool :=
  match p, s with
  | [], _ => true
  | a :: p', b :: s' => byte_eqb a b && starts_with p' s'
  | _ :: _, [] => false
  end.
(** [std::string::find] finds something *)
Fixpoint find (p s : bytes) : bool :=
  starts_with p s || match s with [] => false | _ :: r => find p r end.
(** msi.hpp:8-19 *)
Definition msi_Detailer (e : ExtensionInfo) (s : bytes) : ExtensionInfo :=
  if find (B "ModuleAdminExecuteSequence") s then
    mkExt (B "msm") (B "Microsoft Installer Merge File") (SubType e) (Version e) (VersionName e)
  else if find (B "InstallExecuteSequence") s then e
  else if find (B "MsiPatchSequence") s then
    mkExt (B "msp") (B "Microsoft Installer Patch File") (SubType e) (Version e) (VersionName e)
  else e.
