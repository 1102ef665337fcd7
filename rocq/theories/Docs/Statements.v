(** Vocabulary of the properties C71-C74 that depends on the platform. *)
From Coq Require Import List NArith Bool Strings.String.
From Verif Require Import Lib.Bytes Lib.Text Common.Model.
Import ListNotations.
Local Open Scope N_scope.

(** Where the second version of a Publisher stream is looked for. *)
Definition second (pl : platform) : N := if sizeof_long pl =? 8 then 16 else 12.

(** The bytes of the stream [Current User] that are needed, and the offset in it that is used;
    the bytes of an edit that are needed, and the offset of the version that is used. *)
Definition current_needed (pl : platform) : N := if sizeof_long pl =? 8 then 48 else 28.
Definition current_offset (pl : platform) : N := if sizeof_long pl =? 8 then 32 else 16.
Definition edit_needed (pl : platform) : N := if sizeof_long pl =? 8 then 72 else 36.
Definition edit_version (pl : platform) : N := if sizeof_long pl =? 8 then 24 else 12.

(** The table names that tell the kinds of installer files apart. *)
Definition msm : bytes := B "ModuleAdminExecuteSequence".
Definition msi : bytes := B "InstallExecuteSequence".
Definition msp : bytes := B "MsiPatchSequence".
