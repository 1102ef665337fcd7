(** Vocabulary: numbers stored in a file. *)
From Coq Require Import NArith.
From Verif Require Import Lib.Bytes Common.Spec.
Local Open Scope N_scope.

(** The file has the little-endian number [v] in the [n] bytes at [off]; big-endian below. *)
Definition number_at (content : bytes) (off n v : N) : Prop :=
  exists w, window content off n w /\ le w = v.
Definition be_number_at (content : bytes) (off n v : N) : Prop :=
  exists w, window content off n w /\ be w = v.
