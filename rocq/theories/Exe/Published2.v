(** PE Format, "DLL Characteristics": the bits of the 16-bit field at offset 70 of the optional header, written down
    from memory without a copy of the specification at hand; it shares no definition with the model.
    The field is followed by the size of the stack to reserve. *)
From Coq Require Import List NArith Strings.String.
From Verif Require Import Lib.Bytes Lib.Text.
Import ListNotations.
Local Open Scope N_scope.

Definition dll_characteristics : list (N * bytes) := [
  (5, B "HIGH_ENTROPY_VA");
  (6, B "DYNAMIC_BASE");
  (7, B "FORCE_INTEGRITY");
  (8, B "NX_COMPAT");
  (9, B "NO_ISOLATION");
  (10, B "NO_SEH");
  (11, B "NO_BIND");
  (12, B "APPCONTAINER");
  (13, B "WDM_DRIVER");
  (14, B "GUARD_CF");
  (15, B "TERMINAL_SERVER_AWARE")].
(** The ones the program has no words for *)
Definition without_words : list N := [5; 12; 14].
