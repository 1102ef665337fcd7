(** Names and formulas in terms of the records. *)
From Coq Require Import List NArith ZArith Bool Strings.String.
From Verif Require Import Lib.Res Lib.Bytes Lib.Text Common.Model Excel.Records Excel.Spec Excel.Statements Excel.FormulaSpec.
Import ListNotations.
Local Open Scope N_scope.

(** The i-th name (from 1) given by the records of type [t] among the records before, latest first,
    is [w]. *)
Definition name_of (t : N) (before : list rec) (i : N) (w : bytes) : Prop :=
  exists r, nth_error (filter (fun r => r_type r =? t) (rev before)) (N.to_nat (i - 1)) = Some r /\ GetName r = Some w.
(** The texts of tokens *)
Definition texts (before : list rec) : list tok -> list bytes -> Prop :=
  Forall2 (prints (name_of 0x18 before) (name_of 0x23 before)).
